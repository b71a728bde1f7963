(** Specification for trajectories. *)
From Coq Require Import ZArith QArith Qcanon.

(** The time with number [k] of [N] times which are spread evenly from 0 to 1. *)
Definition moment (N : Z) (k : nat) : Qc := (Q2Qc (inject_Z (Z.of_nat k)) / Q2Qc (inject_Z (N - 1)))%Qc.
