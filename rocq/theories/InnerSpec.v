(** Specification: another order of the units of the second variable. *)
From Coq Require Import List String Reals Arith.
From Verif Require Import Base VecModel RelabelSpec.
Import ListNotations.
Open Scope R_scope.

(** The second variable ([q2] or its costate) is reordered, the others stay. *)
Definition reorder_second (p : nat -> nat) (s : states) : states :=
  match s with a :: (k, x) :: r => a :: (k, reorder p x) :: r | _ => s end.

(** States, costates and data. *)
Definition reorder_inner (p : nat -> nat) (y : states * states * states) : states * states * states :=
  let '(s, c, z) := y in (reorder_second p s, reorder_second p c, reorder_second p z).

(** The second variable has the given name and [u] units; the name is not used again. *)
Definition second_is (u : nat) (key : string) (s : states) : Prop :=
  exists a x r, s = a :: (key, x) :: r /\ n2 x = u /\ fst a <> key /\ ~ In key (map fst r).

(** As the states, costates and data of a model with [u] inner units. *)
Definition with_units (u : nat) (y : states * states * states) : Prop :=
  let '(s, c, z) := y in second_is u "q2" s /\ second_is u "p_q2" c /\ second_is u "q2" z.

(** The first variables of states, costates and data: what a prediction is read from. *)
Definition outer (y : states * states * states) : option (string * t3) * option (string * t3) * option (string * t3) :=
  let '(s, c, z) := y in (hd_error s, hd_error c, hd_error z).
