(** What a recording of a fixed-step run is, without the solver's loops. *)
From Coq Require Import List String ZArith QArith Qcanon Qreals Reals.
From Verif Require Import Base FixedGridSpec HooksModel HooksSpec ComplexitySpec.
Import ListNotations.
Open Scope string_scope.
Open Scope list_scope.
Open Scope nat_scope.

(** An exact time as a real number. *)
Definition qr (q : Qc) : R := Q2R (this q).

(** The grid between two times: whole steps from [t0], then [tl]. *)
Definition grid (h t0 tl : Qc) (g : list Qc) : Prop :=
  exists n, g = map (fun i => (t0 + times i h)%Qc) (seq 0 (S n)) ++ [tl] /\
    (t0 + times n h < tl)%Qc /\ (tl <= t0 + times (S n) h)%Qc.

(** The steps of a grid. *)
Definition steps (g : list Qc) : list (Qc * Qc) := combine g (tl g).

(** Where a method evaluates the right-hand side in a step. *)
Definition stage_times (name : string) (ab : Qc * Qc) : list Qc :=
  let '(a, b) := ab in
  if String.eqb name "euler" then [a]
  else if String.eqb name "midpoint" then [a; ((a + b) / Q2Qc 2)%Qc]
  else [a; ((Q2Qc 2 * a + b) / Q2Qc 3)%Qc; ((a + Q2Qc 2 * b) / Q2Qc 3)%Qc; b].

(** All evaluations of one run. *)
Definition run_times (name : string) (g : list Qc) : list Qc := flat_map (stage_times name) (steps g).

(** First and last time of a run. *)
Definition first (t : list Qc) : Qc := hd 0%Qc t.
Definition final_time (t : list Qc) : Qc := last t 0%Qc.

(** Each run starts not later than the one before ends: restarts from zero, or continuations. *)
Fixpoint restarts (ts : list (list Qc)) : Prop :=
  match ts with
  | t :: ((t' :: _) as r) => (first t' <= final_time t)%Qc /\ restarts r
  | _ => True
  end.

(** The time evaluated in all runs together. *)
Definition total_time (ts : list (list Qc)) : R :=
  fold_right Rplus 0%R (map (fun t => (qr (final_time t) - qr (first t))%R) ts).

(** Usual hook arguments: the time is the one of the evaluation, names are ordinary, and all parameters
    but biases are matrices. *)
Definition usual_arguments {X} (args : Qc -> X -> hook_args) : Prop :=
  forall t y, h_t (args t y) = qr t /\ args_ok (args t y) /\ only_matrices (h_pars (args t y)).

(** The time vectors can be integrated. *)
Definition good_times (ts : list (list Qc)) : Prop :=
  Forall (fun t => 2 <= List.length t /\ Sorting.Sorted.StronglySorted Qclt t) ts.

(** Times at equal distances. *)
Definition uniform (d : Qc) (t : list Qc) : Prop :=
  (0 < d)%Qc /\ exists t0 n, t = map (fun i => (t0 + times i d)%Qc) (seq 0 n).
