(** What the logs of simple_functional_mapping_example.py ([sfm.py]) and of spiral.py
    are expected to be, stated without the model's functions. *)
From Coq Require Import List ZArith Bool.
From Verif Require Import Base FunctionalModel.
Import ListNotations.
Open Scope Z_scope.

(** The options that ask for another network than shooting (sfm.py:100-107). *)
Definition baseline (a : fargs) : Prop :=
  a_use_rnn a = true \/ a_use_double_resnet_rnn a = true \/ a_use_updown a = true \/
  a_use_simple_resnet a = true \/ a_use_double_resnet a = true \/ a_use_neural_ode a = true.

(** Whether the block has particles (sfm.py:74-76: the particle-free modes). *)
Definition has_particles (a : fargs) : Prop :=
  a_particle_free_rnn a = false /\ a_particle_free_time a = false.

(** The epochs in which [q1] is expected to be fixed (sfm.py:94-96, the help texts):
    from the start up to the epoch named, or for ever when the number is negative. *)
Definition q1_fixed (a : fargs) (k : Z) : Prop :=
  has_particles a /\ a_freezing a = true /\ (a_unfreeze_at a < 0 \/ k < a_unfreeze_at a).

(** The epochs with an evaluation: multiples of one of the two frequencies and the
    last one (the help texts sfm.py:109-110). *)
Definition due (a : fargs) (k : Z) : Prop :=
  (a_test_freq a | k) \/ (a_viz_freq a | k) \/ k = a_niters a.

(** [l] is the entry [e] when [P], and empty otherwise. *)
Definition only_if (P : Prop) (e : event) (l : list event) : Prop :=
  (P /\ l = [e]) \/ (~ P /\ l = []).

(** The log of epoch [k] of sfm.py with [nb] batches (see sfm.py:583-660). *)
Definition sfm_day (a : fargs) (nb : Z) (k : Z) (d : list event) : Prop :=
  exists fixed ev sc sh,
    d = repeat (Train k fixed) (Z.to_nat nb) ++ ev ++ sc ++ sh /\
    (fixed = true <-> q1_fixed a k) /\
    only_if (due a k) (Evaluate k) ev /\
    only_if (a_test_freq a | k) (Sched k) sc /\
    only_if ((a_viz a = true \/ a_save_figures a = true) /\
             ((a_viz_freq a | k) \/ k = a_niters a)) (Show k) sh.

(** The log of epoch [k] of spiral.py with [nb] batches (see spiral.py:546-624): the
    scheduler is stepped after every evaluation. *)
Definition spiral_day (a : fargs) (nb : Z) (k : Z) (d : list event) : Prop :=
  exists fixed ev sc sh,
    d = repeat (Train k fixed) (Z.to_nat nb) ++ ev ++ sc ++ sh /\
    (fixed = true <-> q1_fixed a k) /\
    only_if (due a k) (Evaluate k) ev /\
    only_if (due a k) (Sched k) sc /\
    only_if (a_viz_freq a | k) (Show k) sh.

(** A log made of one part for each of the epochs [0] to [n-1]. *)
Definition made_of (day : Z -> list event -> Prop) (n : Z) (log : list event) : Prop :=
  exists days, log = concat days /\ length days = Z.to_nat n /\
    forall k d, nth_error days k = Some d -> day (Z.of_nat k) d.

(** The default options of sfm.py (batches of 50; sfm.py:55-117), with the number of
    epochs, the frequencies and some switches left open (used in the examples). *)
Definition options (niters tf vf : Z) (rnn simple ode pfree freeze : bool) (unfreeze : Z) (clamp viz : bool) : fargs :=
  mkFargs 50 niters rnn false false simple false ode pfree false freeze unfreeze clamp tf vf viz false.
