(** Specification: another order of the features of the first variable. *)
From Coq Require Import List String Reals Arith.
From Verif Require Import Base VecModel.
Import ListNotations.
Open Scope R_scope.

(** A permutation of at least two features (of one feature there is none but the identity). *)
Definition permutes (d : nat) (p : nat -> nat) : Prop :=
  (2 <= d)%nat /\ (forall k, (p k < d)%nat) /\ exists q, forall k, (k < d)%nat -> (q k < d)%nat /\ p (q k) = k /\ q (p k) = k.

(** Feature [k] is the former feature [p k]. *)
Definition reorder (p : nat -> nat) (x : t3) : t3 := mkT3 (n0 x) (n1 x) (n2 x) (fun n i k => v3 x n i (p k)).

(** The first variable ([q1] or its costate) is reordered, the others stay. *)
Definition reorder_first (p : nat -> nat) (s : states) : states :=
  match s with [] => [] | (k, x) :: r => (k, reorder p x) :: r end.

(** States, costates and data. *)
Definition reorder_system (p : nat -> nat) (y : states * states * states) : states * states * states :=
  let '(s, c, z) := y in (reorder_first p s, reorder_first p c, reorder_first p z).

(** The second axis of the first variable has size 1. *)
Definition flat (s : states) : Prop := match s with [] => True | (_, x) :: _ => n1 x = 1%nat end.

(** As the particles and costates of the scripts, of shape (particles, 1, features). *)
Definition flat_particles (y : states * states * states) : Prop := let '(s, c, z) := y in flat s /\ flat c.
