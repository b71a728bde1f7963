(** Specification for blocks with a solver of fixed step size. *)
From Coq Require Import List String Arith ZArith QArith Qcanon.
From Verif Require Import Base IntegratorModel FixedGridSpec.
Import ListNotations.
Open Scope string_scope.
Open Scope list_scope.
Open Scope nat_scope.

(** An integrator with steps of length [h] and one of the three methods, without checkpoints or with a
    checkpoint after every so many steps. *)
Definition steps_of (h : Qc) (hp : heap) (i : integrator) : Prop :=
  In (i_name i) ["euler"; "midpoint"; "rk4"] /\ i_library i = "odeint" /\
  step_option (heap_get hp (i_options i)) h /\ (0 < h)%Qc /\
  i_nr_of_checkpoints i = None /\
  match i_checkpointing_time_interval i with
  | None => True
  | Some d => (0 < d)%Qc /\ exists j, d = times j h
  end.

(** The right-hand side does not depend on the time. *)
Definition autonomous {P X} (rhs : P -> Qc -> X -> X) : Prop := forall p t t' y, rhs p t y = rhs p t' y.
