(** Specification: multiples of the costates. *)
From Coq Require Import List String Reals.
From Verif Require Import Base VecModel.
Import ListNotations.
Open Scope R_scope.

(** A missing weight counts as 1. *)
Definition number (w : option R) : R := match w with None => 1 | Some w => w end.

(** [l] times all entries of all variables. *)
Definition multiple (l : R) (c : states) : states := map (fun kx => (fst kx, map3 (Rmult l) (snd kx))) c.

(** Weights and biases of the layers, without the weights of the penalty. *)
Definition layers (th : pars) : list (string * (t2 * option t2)) :=
  map (fun kl => (fst kl, (lin_weight (snd kl), lin_bias (snd kl)))) th.

(** The system with other costates. *)
Definition multiple_system (l : R) (y : states * states * states) : states * states * states :=
  let '(s, c, z) := y in (s, multiple l c, z).
