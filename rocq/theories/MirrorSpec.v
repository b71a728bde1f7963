(** Specification: the mirror image of particles, costates and data. *)
From Coq Require Import List String Reals.
From Verif Require Import Base VecModel.
Import ListNotations.
Open Scope R_scope.

(** Every entry of every variable with the opposite sign. *)
Definition mirror (s : states) : states :=
  map (fun kx => (fst kx, mkT3 (n0 (snd kx)) (n1 (snd kx)) (n2 (snd kx)) (fun n i k => - v3 (snd kx) n i k))) s.

(** States, costates and data together. *)
Definition mirror_system (y : states * states * states) : states * states * states :=
  let '(s, c, z) := y in (mirror s, mirror c, mirror z).

(** Layers with the opposite biases. *)
Definition mirror_layers (th : pars) : pars :=
  map (fun kl => (fst kl, mkLin (lin_weight (snd kl))
    (match lin_bias (snd kl) with None => None | Some b => Some (mkT2 (m0 b) (m1 b) (fun i k => - v2 b i k)) end)
    (weight_of_weight (snd kl)) (weight_of_bias (snd kl)))) th.
