(** What runs of demos/neurips20/rot.py and demos/neurips20/balls.py are expected to do, without their functions. *)
From Coq Require Import List ZArith QArith Qcanon Permutation.
From Verif Require Import Base Tensor SchedulerModel.
Import ListNotations.
Open Scope nat_scope.

(** [M] sequences of [T] images, with or without an axis for the one channel. *)
Definition images (X : tensor Qc) (M T : nat) : Prop :=
  twf X /\ (tshape X = [M; T; 28; 28] \/ tshape X = [M; T; 1; 28; 28]).

(** The gray value in row [i] and column [j] of image [t] of sequence [n]. *)
Definition pixel (X : tensor Qc) (n t i j : nat) : Qc :=
  match tget X (match tshape X with [_; _; _; _] => [n; t; i; j] | _ => [n; t; 0; i; j] end) with
  | Some x => x
  | None => 0%Qc
  end.

(** The mean of a list of numbers. *)
Definition mean (l : list Qc) : Qc := (fold_right Qcplus 0 l / Q2Qc (inject_Z (Z.of_nat (length l))))%Qc.

(** The mean squared difference of the images [t] of two sequences. *)
Definition frame_error (X Y : tensor Qc) (n t : nat) : Qc :=
  mean (map (fun ij => let x := (pixel X n t (fst ij) (snd ij) - pixel Y n t (fst ij) (snd ij))%Qc in (x * x)%Qc)
            (list_prod (seq 0 28) (seq 0 28))).

(** The images which balls.py compares for [--evaluate_ahead k]: out of 20, from the fourth on. *)
Definition compared (k : Z) : list nat :=
  seq 3 (Z.to_nat (if (1 <=? k)%Z then Z.min k 17 else if (k <=? -4)%Z then 20 + k else 0)).

(** The order of the samples in every epoch is one of [M] samples. *)
Definition orders (M : nat) (order : nat -> list nat) : Prop := forall e, Permutation (order e) (seq 0 M).

(** A number of samples for which no batch of 25 is left with a single one. *)
Definition no_single (M : nat) : Prop := M mod 25 <> 1.

(** An entry of the tracker for epoch [e]: a finite error for each of the [M] test sequences, and their mean. *)
Definition good_entry (M e : nat) (t : nat * num * list num) : Prop :=
  exists qs, t = (e, Fin (mean qs), map Fin qs) /\ length qs = M.
