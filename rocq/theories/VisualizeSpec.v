(** Specification for the picture of the learned vector field. *)
From Coq Require Import Reals QArith.
Open Scope R_scope.

(** [d] is the vector of length one in the direction of the vector (u, v); none for the zero vector. *)
Definition points_along (u v : R) (d : option (R * R)) : Prop :=
  match d with
  | None => u = 0 /\ v = 0
  | Some (a, b) => a * a + b * b = 1 /\ exists m, 0 < m /\ u = m * a /\ v = m * b
  end.

(** The place in row [i] and column [j]: 21 rows and columns cover the square from -2 to 2, the rows from below. *)
Definition at_place (i j : nat) (p : Q * Q) : Prop :=
  (fst p == (4 # 20) * inject_Z (Z.of_nat j) - 2)%Q /\ (snd p == (4 # 20) * inject_Z (Z.of_nat i) - 2)%Q.
