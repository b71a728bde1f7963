(** Examples of particles for C142 (states as in shooting_models.py:1116-1166). *)
From Coq Require Import List String Reals Arith.
From Verif Require Import Base VecModel.
Import ListNotations.
Open Scope string_scope.
Open Scope list_scope.
Open Scope nat_scope.

(** Two particles at 0 and 1. *)
Definition two_positions : states := [("q1", mkT3 2 1 1 (fun n _ _ => INR n))].
(** Their costates. *)
Definition two_costates : states := [("p_q1", mkT3 2 1 1 (fun _ _ _ => 1%R))].
(** Each of them twice. *)
Definition four_positions : states := [("q1", mkT3 4 1 1 (fun n _ _ => INR (n mod 2)))].
(** Their costates. *)
Definition four_costates : states := [("p_q1", mkT3 4 1 1 (fun _ _ _ => 1%R))].
(** One sample. *)
Definition some_data : states := [("q1", mkT3 1 1 1 (fun _ _ _ => 5%R))].

(** One particle at 1 with costate 1. *)
Definition one_position : states := [("q1", mkT3 1 1 1 (fun _ _ _ => 1%R))].
(** Its costate. *)
Definition one_costate : states := [("p_q1", mkT3 1 1 1 (fun _ _ _ => 1%R))].
(** A particle without costate after it. *)
Definition silent_position : states := [("q1", mkT3 2 1 1 (fun n _ _ => if Nat.eqb n 0 then 1%R else 7%R))].
(** The costates. *)
Definition silent_costate : states := [("p_q1", mkT3 2 1 1 (fun n _ _ => if Nat.eqb n 0 then 1%R else 0%R))].
