(** Integrating to the last time and back (C157). *)
From Coq Require Import List String ZArith QArith Qcanon.
From Verif Require Import FixedGridSpec.
Import ListNotations.
Open Scope string_scope.

(** Vectors: addition and multiplication by numbers. *)
Definition space_laws {X} (add : X -> X -> X) (mul : Qc -> X -> X) : Prop :=
  linear_laws add mul /\
  (forall u v w, add (add u v) w = add u (add v w)) /\ (forall u v, add u v = add v u) /\
  (forall a b v, mul (a + b)%Qc v = add (mul a v) (mul b v)) /\ (forall u v, add u (mul 0%Qc v) = u).

(** The velocities do not depend on the place; for Euler's method, which takes the velocity at the beginning of a
    step, they must not depend on the time either. *)
Definition same_everywhere {X} (name : string) (f : Qc -> X -> X) : Prop :=
  (forall t y z, f t y = f t z) /\ (name = "euler" -> forall t s y, f t y = f s y).
