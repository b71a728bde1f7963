(** Properties C92, C94, C95: the runs of simple_functional_mapping_example.py
    (sfm.py) and spiral.py. *)
From Coq Require Import List ZArith Bool Lia.
From Verif Require Import Base FunctionalModel FunctionalSpec FunctionalProofs.
Import ListNotations.
Open Scope Z_scope.

(** C92, as expected by a user, asks that every network that can be asked for on the
    command line is trained.  False: with --use_simple_resnet and all other options
    at their defaults the run stops with a [NameError]. *)
Theorem C92_every_network_refuted :
  exists a, a_use_simple_resnet a = true /\ 0 < a_batch_size a /\ 0 <= a_niters a /\
    a_test_freq a <> 0 /\ a_viz_freq a <> 0 /\ sfm_main a = Raise NameError.
Proof.
  exists (options 250 10 25 false true false false false (-1) false false).
  repeat split; try (cbn; lia); reflexivity.
Qed.
Print Assumptions C92_every_network_refuted.

(** No other network than shooting can be trained, whatever the other options. *)
Theorem C92_baselines_raise : forall a, baseline a -> 0 < a_batch_size a -> 0 <= a_niters a ->
  sfm_main a = Raise (if a_use_neural_ode a
                        && (a_use_rnn a || a_use_double_resnet_rnn a || a_use_updown a
                            || a_use_simple_resnet a || a_use_double_resnet a)
                      then AttributeError else NameError).
Proof. exact sfm_baseline_raises. Qed.
Print Assumptions C92_baselines_raise.

(** C92 for shooting: the run ends normally.  Missing from the full statement: all
    other networks, and --clamp_range without particles. *)
Theorem C92_shooting_partial : forall a, ~ baseline a -> 0 < a_batch_size a ->
  a_test_freq a <> 0 -> a_viz_freq a <> 0 ->
  (a_clamp_range a = true -> has_particles a \/ 500 < a_batch_size a) ->
  exists log, sfm_main a = Ok log.
Proof. exact sfm_shooting_runs. Qed.
Print Assumptions C92_shooting_partial.

(** --clamp_range needs particles. *)
Theorem C92_clamp_raises : forall a, ~ baseline a -> 0 < a_batch_size a <= 500 -> 0 <= a_niters a ->
  a_clamp_range a = true -> ~ has_particles a -> sfm_main a = Raise KeyError.
Proof. exact sfm_clamp_raises. Qed.
Print Assumptions C92_clamp_raises.

(** C92 for spiral.py: a run ends normally, unless the batches are larger than the
    training set, which is not reported but leaves the loss unassigned. *)
Theorem C92_spiral_partial : forall a,
  (0 < a_batch_size a <= 100 -> a_test_freq a <> 0 -> a_viz_freq a <> 0 ->
   exists log, spiral_main a = Ok log) /\
  (100 < a_batch_size a -> 0 <= a_niters a -> a_test_freq a <> 0 -> spiral_main a = Raise NameError).
Proof. exact (fun a => conj (spiral_runs a) (spiral_large_batch a)). Qed.
Print Assumptions C92_spiral_partial.

(** Shooting with clamped particles; a recurrent network together with a neural ODE;
    a neural ODE alone; clamping without particles; spiral.py with batches of 50. *)
Example C92_case :
  (exists log, sfm_main (options 2 10 25 false false false false true 1 true true) = Ok log /\ length log = 35%nat) /\
  sfm_main (options 2 10 25 true false true false false (-1) false false) = Raise AttributeError /\
  sfm_main (options 2 10 25 false false true false false (-1) false false) = Raise NameError /\
  sfm_main (options 2 10 25 false false false true false (-1) true false) = Raise KeyError /\
  exists log, spiral_main (options 2 10 25 false false false false false (-1) false false) = Ok log /\ length log = 11%nat.
Proof. repeat split; try reflexivity; eexists; split; reflexivity. Qed.

(** C94, as expected by a user, asks that --niters epochs are trained.  False: with
    --niters 2 the epochs 0, 1 and 2 are trained, in both programs. *)
Theorem C94_epochs_refuted :
  exists a log log', a_niters a = 2 /\ sfm_main a = Ok log /\ spiral_main a = Ok log' /\
    forall k, In k [0; 1; 2] -> In (Train k false) log /\ In (Train k false) log'.
Proof.
  pose (a := options 2 10 25 false false false false false (-1) false false). exists a.
  let l := eval vm_compute in (sfm_main a) in match l with Ok ?l => exists l end.
  let l := eval vm_compute in (spiral_main a) in match l with Ok ?l => exists l end.
  split; [reflexivity|]. split; [reflexivity|]. split; [reflexivity|].
  intros k [<-|[<-|[<-|[]]]]; cbn [In]; tauto.
Qed.
Print Assumptions C94_epochs_refuted.

(** C94 also asks that --test_freq sets how often the scheduler is stepped.  False
    for spiral.py, which steps it after each figure and after the last epoch, too. *)
Theorem C94_scheduler_refuted :
  exists a log, spiral_main a = Ok log /\ In (Sched 3) log /\ ~ (a_test_freq a | 3).
Proof.
  pose (a := options 3 2 2 false false false false false (-1) false false). exists a.
  let l := eval vm_compute in (spiral_main a) in match l with Ok ?l => exists l end.
  split; [reflexivity|]. split; [cbn [In]; tauto|]. cbn. intros [z Hz]. lia.
Qed.
Print Assumptions C94_scheduler_refuted.

(** C94 for sfm.py: the epochs 0 to niters are run in order, each with all its
    training steps first, then the evaluation (at multiples of either frequency and
    at the end), then one scheduler step exactly at the multiples of --test_freq, then
    the figure.  Missing from the full statement: one epoch less. *)
Theorem C94_sfm_partial : forall a log, sfm_main a = Ok log ->
  made_of (sfm_day a (500 / a_batch_size a)) (a_niters a + 1) log.
Proof. exact sfm_schedule. Qed.
Print Assumptions C94_sfm_partial.

(** C94 for spiral.py: the same, except that the scheduler is stepped after every
    evaluation. *)
Theorem C94_spiral_partial : forall a log, spiral_main a = Ok log ->
  made_of (spiral_day a (100 / a_batch_size a)) (a_niters a + 1) log.
Proof. exact spiral_main_days. Qed.
Print Assumptions C94_spiral_partial.

(** Batches of 250 of 500 samples, four epochs, frequencies 2 and 3. *)
Example C94_case :
  sfm_main (mkFargs 250 4 false false false false false false false false false (-1) false 2 3 true false) =
  Ok [Train 0 false; Train 0 false; Evaluate 0; Sched 0; Show 0;
      Train 1 false; Train 1 false;
      Train 2 false; Train 2 false; Evaluate 2; Sched 2;
      Train 3 false; Train 3 false; Evaluate 3; Show 3;
      Train 4 false; Train 4 false; Evaluate 4; Sched 4; Show 4].
Proof. reflexivity. Qed.

(** C95: a run with --custom_parameter_freezing trains with the positions of the
    particles fixed exactly in the epochs before --unfreeze_parameters_at_iter (in all
    epochs when it is negative, the default); without it they are never fixed. *)
Theorem C95_sfm_freezing : forall a log k b, sfm_main a = Ok log -> In (Train k b) log ->
  0 <= k <= a_niters a /\ (b = true <-> q1_fixed a k).
Proof. exact sfm_frozen. Qed.
Print Assumptions C95_sfm_freezing.

(** C95 for spiral.py. *)
Theorem C95_spiral_freezing : forall a log k b, spiral_main a = Ok log -> In (Train k b) log ->
  0 <= k <= a_niters a /\ (b = true <-> q1_fixed a k).
Proof. exact spiral_frozen. Qed.
Print Assumptions C95_spiral_freezing.

(** Fixed in epoch 0 only, for one batch per epoch. *)
Example C95_case :
  let a := mkFargs 100 2 false false false false false false false false true 1 false 9 9 false false in
  spiral_main a =
    Ok [Train 0 true; Evaluate 0; Sched 0; Show 0; Train 1 false; Train 2 false; Evaluate 2; Sched 2] /\
  q1_fixed a 0 /\ ~ q1_fixed a 1.
Proof. split; [reflexivity|]. unfold q1_fixed, has_particles. cbn. intuition lia. Qed.
