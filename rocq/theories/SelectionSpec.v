(** How often starting points are offered. *)
From Coq Require Import List ZArith Reals.
Import ListNotations.
Open Scope R_scope.

(** [scale] divides by the smallest number and rounds to a nearest integer, whichever of two it takes. *)
Definition rounds (scale : list R -> list Z) : Prop :=
  forall l m, In m l -> 0 < m -> (forall d, In d l -> m <= d) ->
    Forall2 (fun d z => Rabs (IZR z - d / m) <= 1 / 2) l (scale l).

(** How often [i] is in the list. *)
Definition offered (i : nat) (l : list nat) : nat := count_occ Nat.eq_dec l i.
