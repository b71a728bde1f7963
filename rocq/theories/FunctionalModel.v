(** Model of the main programs of
    demos/neurips20/simple_functional_mapping_example.py ([sfm.py]) and
    demos/neurips20/spiral.py ([spiral.py]): which network is chosen, and what the
    loop over the epochs does when.

    Simplifications: a run is the list of what it does to the model (training
    steps, evaluations, scheduler steps, figures); the global variables that are
    only assigned in some branches are options, and reading an unassigned one is a
    [NameError].  The numbers computed are in FunctionalDataModel; the shooting
    model and block are built the same way for all networks and assumed to be
    built without error (see the block models); printing is left out. *)
From Coq Require Import String.
From Coq Require Import List ZArith QArith Bool.
From Verif Require Import Base.
Import ListNotations.
Open Scope list_scope.
Open Scope Z_scope.

(** The command line options used here (sfm.py:55-120, spiral.py:40-111). *)
Record fargs : Type := mkFargs {
  a_batch_size : Z;
  a_niters : Z;
  a_use_rnn : bool;
  a_use_double_resnet_rnn : bool;
  a_use_updown : bool;
  a_use_simple_resnet : bool;
  a_use_double_resnet : bool;
  a_use_neural_ode : bool;
  a_particle_free_rnn : bool;
  a_particle_free_time : bool;
  a_freezing : bool;
  a_unfreeze_at : Z;
  a_clamp_range : bool;
  a_test_freq : Z;
  a_viz_freq : Z;
  a_viz : bool;
  a_save_figures : bool
}.

(** The global variables set up before the loop (sfm.py:495-570).  [g_net] is the
    class of [simple_resnet]; [g_func] tells that [func] is not [None]. *)
Record globals : Type := mkGlobals {
  g_use_shooting : bool;
  g_net : option string;
  g_func : bool;
  g_weight_decay : option Q;
  g_uses_particles : option bool
}.

(** sfm.py:495-531 *)
Definition select (a : fargs) : globals :=
  if a_use_rnn a then mkGlobals false (Some "ResNetRNN"%string) false (Some (1 # 10000)%Q) None
  else if a_use_double_resnet_rnn a then mkGlobals false (Some "DoubleResNetUpDownRNN"%string) false (Some (25 # 1000)%Q) None
  else if a_use_updown a then mkGlobals false (Some "ResNetUpDown"%string) false (Some (1 # 100)%Q) None
  else if a_use_simple_resnet a then mkGlobals false (Some "ResNet"%string) false (Some (1 # 10000)%Q) None
  else if a_use_double_resnet a then mkGlobals false (Some "DoubleResNetUpDown"%string) false (Some (1 # 100)%Q) None
  else if a_use_neural_ode a then mkGlobals false None true None None
  else mkGlobals true None false None None.

(** sfm.py:559, spiral.py:522 *)
Definition particles_used (a : fargs) : bool :=
  negb (a_particle_free_rnn a || a_particle_free_time a).

(** sfm.py:534-570.  [func.parameters()] of [None] is an [AttributeError]. *)
Definition setup_params (a : fargs) (g : globals) : result globals :=
  if negb (g_use_shooting g) then
    if a_use_neural_ode a then
      if g_func g then Ok g else Raise AttributeError
    else
      match g_net g with Some _ => Ok g | None => Raise NameError end
  else Ok (mkGlobals true (g_net g) (g_func g) (Some 0%Q) (Some (particles_used a))).

(** Reading a global variable that may be unassigned (sfm.py:573, 585). *)
Definition read_global {A} (v : option A) : result A :=
  match v with Some x => Ok x | None => Raise NameError end.

(** [len(train_loader)] of a loader with [drop_last=True] over [n] samples
    (sfm.py:182-185, spiral.py:353-357); a batch size below one is refused. *)
Definition len_loader (n b : Z) : result Z :=
  if b <=? 0 then Raise ValueError else Ok (n / b).

(** What a run does: a training step of an epoch (and whether [q1] is frozen), an
    evaluation, a scheduler step and a figure. *)
Inductive event : Type :=
| Train (itr : Z) (q1_frozen : bool)
| Evaluate (itr : Z)
| Sched (itr : Z)
| Show (itr : Z).

(** [itr % f == 0] (sfm.py:632, 645, 659; spiral.py:572, 603). *)
Definition multiple_of (itr f : Z) : result bool :=
  if f =? 0 then Raise ZeroDivisionError else Ok (itr mod f =? 0).

(** [x or y]: the second operand is only evaluated when needed. *)
Definition py_or (x y : result bool) : result bool :=
  b <- x ;; if b then Ok true else y.

(** [ReduceLROnPlateau.step] (sfm.py:648, 650; spiral.py:594, 600): the loss is a
    required argument.  [Some itr] stands for the loss evaluated in epoch [itr]. *)
Definition plateau_step (metrics : option Z) : result (list event) :=
  match metrics with Some itr => Ok [Sched itr] | None => Raise TypeError end.

(** [try: x except: y]. *)
Definition try_except {A} (x y : result A) : result A :=
  match x with Ok v => Ok v | Raise _ => y end.

(** [range(0, n)] *)
Definition zrange (n : Z) : list Z := map Z.of_nat (seq 0 (Z.to_nat n)).

(** sfm.py:590-629: the training steps of an epoch.  [sd['q1']] does not exist in
    the particle-free modes (shooting_blocks.py registers no particles there). *)
Definition sfm_train (a : fargs) (g : globals) (nb : Z) (itr : Z) (frozen : bool) : result (list event) :=
  if a_clamp_range a && g_use_shooting g && negb (particles_used a) && (0 <? nb) then Raise KeyError
  else Ok (repeat (Train itr frozen) (Z.to_nat nb)).

(** sfm.py:632-660 *)
Definition sfm_evaluate (a : fargs) (itr : Z) : result (list event) :=
  due <- py_or (multiple_of itr (a_test_freq a))
           (py_or (multiple_of itr (a_viz_freq a)) (Ok (itr =? a_niters a))) ;;
  if due then
    test <- multiple_of itr (a_test_freq a) ;;
    s <- (if test then try_except (plateau_step None) (plateau_step (Some itr)) else Ok []) ;;
    show <- (if a_viz a || a_save_figures a
             then py_or (multiple_of itr (a_viz_freq a)) (Ok (itr =? a_niters a)) else Ok false) ;;
    Ok (Evaluate itr :: s ++ (if show : bool then [Show itr] else []))
  else Ok [].

(** sfm.py:585-660, one epoch. *)
Definition sfm_epoch (a : fargs) (g : globals) (nb : Z) (st : bool * list event) (itr : Z) :
    result (bool * list event) :=
  let (frozen, log) := st in
  particles <- read_global (g_uses_particles g) ;;
  let frozen := if particles && a_freezing a && (itr =? a_unfreeze_at a) then false else frozen in
  t <- sfm_train a g nb itr frozen ;;
  e <- sfm_evaluate a itr ;;
  Ok (frozen, log ++ t ++ e).

(** sfm.py:436, 495-660.  There are 500 training samples (sfm.py:180). *)
Definition sfm_main (a : fargs) : result (list event) :=
  nb <- len_loader 500 (a_batch_size a) ;;
  g <- setup_params a (select a) ;;
  _ <- read_global (g_weight_decay g) ;;
  st <- foldM (sfm_epoch a g nb) (zrange (a_niters a + 1))
          (match g_uses_particles g with Some true => a_freezing a | _ => false end, []) ;;
  Ok (snd st).

(** spiral.py:548-624, one epoch.  The state also tells whether [loss] is assigned,
    as it is printed before the evaluation (spiral.py:574-576). *)
Definition spiral_epoch (a : fargs) (nb : Z) (st : bool * bool * list event) (itr : Z) :
    result (bool * bool * list event) :=
  match st with
  | (frozen, has_loss, log) =>
      let frozen := if a_freezing a && (itr =? a_unfreeze_at a) && particles_used a then false else frozen in
      let t := repeat (Train itr frozen) (Z.to_nat nb) in
      let has_loss := has_loss || (0 <? nb) in
      due <- py_or (multiple_of itr (a_test_freq a))
               (py_or (multiple_of itr (a_viz_freq a)) (Ok (itr =? a_niters a))) ;;
      e <- (if due then
              if has_loss
              then s <- try_except (plateau_step (Some itr)) (plateau_step None) ;; Ok (Evaluate itr :: s)
              else Raise NameError
            else Ok []) ;;
      show <- multiple_of itr (a_viz_freq a) ;;
      Ok (frozen, has_loss || due, log ++ t ++ e ++ (if show : bool then [Show itr] else []))
  end.

(** spiral.py:522-624.  There are 100 training samples (spiral.py:343). *)
Definition spiral_main (a : fargs) : result (list event) :=
  nb <- len_loader 100 (a_batch_size a) ;;
  st <- foldM (spiral_epoch a nb) (zrange (a_niters a + 1)) (particles_used a && a_freezing a, false, []) ;;
  Ok (snd st).
