(** What reproducing a run means; independent of the programs. *)
From Coq Require Import List ZArith Bool.
From Verif Require Import Base RecordModel.
Import ListNotations.

(** The outcome of a program does not depend on what generators have done before. *)
Definition reproducible {H A} (m : eff (H := H) A) : Prop := forall g g', fst (m g) = fst (m g').

(** A program forgets all generators: outcome and generators afterwards are always the same. *)
Definition forgets {H A} (m : eff (H := H) A) : Prop := forall g g', m g = m g'.

(** Seeds which all generators accept. *)
Definition usable_seed (seed : Z) : Prop := (0 <= seed < 2 ^ 32)%Z.

(** An epoch is followed by an evaluation: at multiples of both frequencies, and at the end. *)
Definition evaluated (niters test_freq viz_freq : Z) (itr : Z) : Prop :=
  (itr mod test_freq = 0 \/ itr mod viz_freq = 0 \/ itr = niters)%Z.
