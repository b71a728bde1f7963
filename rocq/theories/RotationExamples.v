(** Examples of particles with two features for C148 (states as in shooting_models.py:227-255, 1116-1166). *)
From Coq Require Import List String Reals Arith.
From Verif Require Import Base VecModel.
Import ListNotations.
Open Scope string_scope.
Open Scope list_scope.
Open Scope R_scope.

(** A rotation by more than a right angle. *)
Definition some_rotation (j k : nat) : R :=
  match j, k with 0%nat, 0%nat => - (3 / 5) | 0%nat, _ => 4 / 5 | _, 0%nat => - (4 / 5) | _, _ => - (3 / 5) end.

(** The first of two features is 1, the other 0. *)
Definition east : t3 := mkT3 1 1 2 (fun _ _ k => match k with 0%nat => 1 | _ => 0 end).
(** States, costates and data of a model with one variable. *)
Definition east_system : states * states * states := ([("q1", east)], [("p_q1", east)], [("q1", east)]).
(** States, costates and data of a model with two variables. *)
Definition east_pair : states * states * states :=
  ([("q1", east); ("q2", east)], [("p_q1", east); ("p_q2", east)], [("q1", east); ("q2", east)]).
(** The exchange of two features, for C150. *)
Definition exchanged (k : nat) : nat := match k with 0%nat => 1%nat | _ => 0%nat end.
