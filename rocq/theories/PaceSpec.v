(** Specification: larger costates and longer times. *)
From Coq Require Import List String Reals QArith Qcanon Qreals.
From Verif Require Import Base IntegratorModel VecModel FixedGridSpec ScalingSpec.
Import ListNotations.
Open Scope string_scope.
Open Scope list_scope.

(** All times [l] times as long. *)
Definition longer (l : Qc) (t : list Qc) : list Qc := map (Qcmult l) t.

(** The options ask for steps [l] times as long, or none of them asks for a step size. *)
Definition longer_steps (l : Qc) (o o' : opts) : Prop :=
  (sd_get "step_size" o = None /\ sd_get "step_size" o' = None) \/
  exists h, step_option o h /\ step_option o' (l * h)%Qc.

(** The factor as a real number. *)
Definition real (l : Qc) : R := Q2R (this l).

(** [l] times the layers. *)
Definition times_layers (l : R) (a : list (string * (t2 * option t2))) : list (string * (t2 * option t2)) :=
  map (fun kl => (fst kl, (map2 (Rmult l) (fst (snd kl)), option_map (map2 (Rmult l)) (snd (snd kl))))) a.

(** Derivatives [l] times as large, those of the costates [l]^2 times. *)
Definition faster (l : R) (r : states * states * states) : states * states * states :=
  let '(ds, dc, dz) := r in (multiple l ds, multiple (l * l) dc, multiple l dz).
