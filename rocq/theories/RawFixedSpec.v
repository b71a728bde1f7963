(** Specification for the scalar fixed-point check. *)
From Coq Require Import Reals.
Open Scope R_scope.

(** Automatic differentiation gives the derivative wherever there is one. *)
Definition differentiates (grad : (R -> R) -> R -> R) : Prop :=
  forall f x l, derivable_pt_lim f x l -> grad f x = l.

(** The nonlinearity is differentiable with the given derivative. *)
Definition derivative_of (nl dnl : R -> R) : Prop := forall x, derivable_pt_lim nl x (dnl x).

(** What remains of the distance to the minimiser of the Lagrangian after [n] steps of gradient descent. *)
Definition remainder (learning_rate : R) (n : nat) : R := (1 - learning_rate) ^ n.
