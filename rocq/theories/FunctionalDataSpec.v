(** Independent statements about the data, losses and figures of
    simple_functional_mapping_example.py ([sfm.py]) and spiral.py. *)
From Coq Require Import String.
From Coq Require Import List Reals Bool.
From Verif Require Import Base.
Import ListNotations.
Open Scope R_scope.

(** The functions to be learned (sfm.py:87 and the paper): the cube, and
    x^2 + 3/(1+x^2). *)
Definition target (fcn_type : string) (x y : R) : Prop :=
  (fcn_type = "cubic"%string /\ y = x * x * x) \/
  (fcn_type = "quadratic"%string /\ (y - x * x) * (1 + x * x) = 3).

(** The value saved under a name. *)
Fixpoint saved_under (name : string) (d : list (string * R)) (v : R) : Prop :=
  match d with
  | [] => False
  | (k, w) :: r => (k = name /\ w = v) \/ (k <> name /\ saved_under name r v)
  end.

(** The sum of squares of the pointwise differences of two lists. *)
Fixpoint square_error (p q : list R) : R :=
  match p, q with
  | x :: p, y :: q => (x - y) * (x - y) + square_error p q
  | _, _ => 0
  end.

(** The sum of the absolute pointwise differences of two lists. *)
Fixpoint absolute_error (p q : list R) : R :=
  match p, q with
  | x :: p, y :: q => Rabs (x - y) + absolute_error p q
  | _, _ => 0
  end.

(** [s] is the sum of the Euclidean distances of the points of two lists. *)
Fixpoint total_distance (pred y : list (list R)) (s : R) : Prop :=
  match pred, y with
  | p :: pred, q :: y => exists d, 0 <= d /\ d * d = square_error p q /\ total_distance pred y (s - d)
  | _, _ => s = 0
  end.

(** The mean deviation of predicted points by the norm asked for: of the coordinates
    for l1, of the points for l2. *)
Definition mean_deviation (sim_norm : string) (pred y : list (list R)) (m : R) : Prop :=
  (sim_norm = "l1"%string /\ m * INR (length (concat pred)) = absolute_error (concat pred) (concat y)) \/
  (sim_norm = "l2"%string /\ total_distance pred y (m * INR (length pred))).
