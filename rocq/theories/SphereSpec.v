(** Specifications for the concentric sphere data and the test metrics. *)
From Coq Require Import List Reals.
Import ListNotations.
Open Scope R_scope.

(** The cross entropy of a prediction with log-odds [x] against the label [y]. *)
Definition cross_entropy (x y : R) : R :=
  let p := 1 / (1 + exp (- x)) in - (y * ln p + (1 - y) * ln (1 - p)).

(** A prediction is right when positive log-odds meet label 1 and others label 0. *)
Definition hit (x y : R) : Prop := (0 < x /\ y = 1) \/ (x <= 0 /\ y = 0).

(** [counts P l n]: exactly [n] members of [l] satisfy [P]. *)
Inductive counts {A : Type} (P : A -> Prop) : list A -> nat -> Prop :=
  | counts_nil : counts P [] 0
  | counts_yes : forall a l n, P a -> counts P l n -> counts P (a :: l) (S n)
  | counts_no : forall a l n, ~ P a -> counts P l n -> counts P (a :: l) n.

(** The arithmetic mean. *)
Definition average (l : list R) : R := fold_right Rplus 0 l / INR (length l).

(** The squared distance from the origin. *)
Definition square_radius (v : list R) : R := fold_right (fun x s => x * x + s) 0 v.

(** The share of the shell between radii [a] and [b] in [dim] dimensions that lies
    within radius [r]: volumes grow with the power [dim]. *)
Definition volume_share (dim : nat) (a b r : R) : R := (r ^ dim - a ^ dim) / (b ^ dim - a ^ dim).
