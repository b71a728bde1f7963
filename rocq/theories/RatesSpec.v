(** The learning rates expected, stated without the schedulers. *)
From Coq Require Import List String ZArith QArith Qcanon Bool Reals Sorted.
From Verif Require Import Base SchedulerModel FunctionalModel.
Import ListNotations.

(** The epochs before [k] with a property, in order. *)
Definition epochs_before (P : Z -> Prop) (k : Z) (es : list Z) : Prop :=
  StronglySorted Z.lt es /\ forall j, In j es <-> (0 <= j < k)%Z /\ P j.

(** Cosine annealing from [lr] to 0 over [n] epochs. *)
Definition annealed (lr : R) (n k : nat) : R := (lr * (1 + cos (PI * INR k / INR n)) / 2)%R.

(** The rates of all training steps: epoch [k] has as many as batches. *)
Definition used_rates {B : Type} (lr : R) (n : nat) (batches : nat -> list B) : list R :=
  flat_map (fun k => repeat (annealed lr n k) (List.length (batches k))) (seq 0 n).


(** The value in epoch [x] is more than a ten-thousandth below all earlier ones. *)
Definition improves (value : Z -> Qc) (earlier : list Z) (x : Z) : Prop :=
  forall y, In y earlier -> (value x < value y * (1 - Q2Qc (1 # 10000)))%Qc.

(** Among any eleven evaluations in a row there is an improvement. *)
Definition often_improving (value : Z -> Qc) (es : list Z) : Prop :=
  forall l1 w l2, es = l1 ++ w ++ l2 -> List.length w = 11%nat -> exists w1 x w2, w = w1 ++ x :: w2 /\ improves value (l1 ++ w1) x.
