(** Contracts of what the autoencoder calls. *)
From Coq Require Import List ZArith Permutation.
From Verif Require Import Base Tensor.
Import ListNotations.

(** For [N] samples of latent dimension [d] the block gives trajectories at [T] times. *)
Definition block_gives {A : Type} (blk : tensor A -> result (tensor A)) (d T N : nat) : Prop :=
  forall u, twf u -> tshape u = [N; 1; d] -> exists b, blk u = Ok b /\ twf b /\ tshape b = [T; N; 1; d].

(** Shuffling permutes. *)
Definition shuffles (shuffle : nat -> list Z -> list Z) : Prop := forall n l, Permutation l (shuffle n l).
