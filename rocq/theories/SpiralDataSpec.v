(** The spiral, without solvers. *)
From Coq Require Import List String ZArith QArith Qcanon Qreals Reals.
From Verif Require Import Base ArgparseModel CirclesSpec FixedGridSpec.
Import ListNotations.
Open Scope string_scope.
Open Scope list_scope.
Open Scope R_scope.

(** The curve: two turns per 2 pi units of time, shrinking by a tenth per unit. *)
Definition curve (t : R) : R * R := (2 * exp (- (t / 10)) * cos (2 * t), 2 * exp (- (t / 10)) * sin (2 * t)).

(** How far apart two points are. *)
Definition apart (a b : R * R) : R := sqrt ((fst a - fst b) * (fst a - fst b) + (snd a - snd b) * (snd a - snd b)).

(** The distance from the origin. *)
Definition radius (a : R * R) : R := apart a (0, 0).

(** [y] moves according to [rhs] between the times 0 and 10. *)
Definition moves (rhs : R * R -> R * R) (y : R -> R * R) : Prop :=
  forall t, 0 <= t <= 10 ->
    derivable_pt_lim (fun s => fst (y s)) t (fst (rhs (y t))) /\ derivable_pt_lim (fun s => snd (y s)) t (snd (rhs (y t))).

(** The options ask for the linear equation, [n] points, and rk4 with steps of length [q]; checkpoints, if any, at whole
    numbers of steps. *)
Definition asks_rk4 (ns : pdict argval) (n : nat) (q : Q) : Prop :=
  option_is ns "linear" (AFlag true) /\ option_is ns "data_size" (AInt (Z.of_nat n)) /\
  option_is ns "method" (AText "rk4") /\ option_is ns "stepsize" (ANum q) /\
  exists number interval, option_is ns "nr_of_checkpoints" (AInt number) /\
    option_is ns "checkpointing_time_interval" (ANum interval) /\
    let nr := if (0 <? number)%Z then Some number else None in
    let dt := if negb (Qle_bool interval 0) then Some (Q2Qc interval) else None in
    nr = None /\ dt = None \/ aligned (Q2Qc q) 0%Qc (Q2Qc 10) nr dt.

(** The time of the [i]-th of [n] points. *)
Definition point_time (n i : nat) : R := 10 * INR i / INR (n - 1).
