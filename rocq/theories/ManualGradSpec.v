(** Specification for the comparison of hand-made equations with the package. *)
From Coq Require Import List String Reals Arith.
From Verif Require Import Base RealSum VecModel VecSpec.
Import ListNotations.
Open Scope string_scope.
Open Scope R_scope.

(** What the package computes for the simple model with parameter weight 1 and [d] features at the states
    [q] and costates [p] of [N] particles: the optimal weight and bias, the derivatives of states and costates. *)
Definition package_computes (nl : R -> R) (init : inits) (N d : nat) (q p : t3) (A b : t2) (rq rp : t3) : Prop :=
  exists l, lin_weight l = A /\ lin_bias l = Some b
    /\ autodiff_parameters (simple_rhs nl) (simple_objects init d (Some 1)) [("q1", q)] [("p_q1", p)] [("l1", l)]
    /\ simple_rhs nl [("q1", q)] [("l1", l)] = Ok [("dot_q1", rq)]
    /\ autodiff_costates (simple_rhs nl) (simple_objects init d (Some 1)) N [("q1", q)] [("p_q1", p)] [("dot_p_q1", rp)].

(** The package's quantities are [f] times the hand-made ones, which hold the weight transposed. *)
Definition agree_up_to (f : R) (N d : nat) (At bt : t2) (dq dp : t3) (A b : t2) (rq rp : t3) : Prop :=
  (forall i k, (i < d)%nat -> (k < d)%nat -> v2 A i k = f * v2 At k i)
  /\ (forall k, (k < d)%nat -> v2 b 0 k = f * v2 bt 0 k)
  /\ (forall n k, (n < N)%nat -> (k < d)%nat -> v3 rq n 0 k = f * v3 dq n 0 k)
  /\ (forall n k, (n < N)%nat -> (k < d)%nat -> v3 rp n 0 k = f * v3 dp n 0 k).
