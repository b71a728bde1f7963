(** Specification for the comparison of automatic and manual derivatives. *)
From Coq Require Import List Reals.
From Coquelicot Require Import Coquelicot.
Import ListNotations.
Open Scope list_scope.
Open Scope R_scope.

(** The point [x] with entry [i] set to [t]. *)
Definition with_entry (i : nat) (t : R) (x : list R) : list R :=
  firstn i x ++ t :: skipn (S i) x.

(** [g] lists the partial derivatives of [f] at [x]. *)
Definition partials (f : list R -> R) (x g : list R) : Prop :=
  length g = length x /\
  forall i, (i < length x)%nat -> is_derive (fun t => f (with_entry i t x)) (nth i x 0) (nth i g 0).

(** A differentiation that finds the partial derivatives wherever they exist. *)
Definition differentiates (grad : (list R -> R) -> list R -> list R) : Prop :=
  forall f x g, partials f x g -> grad f x = g.

(** Such a differentiation. *)
Definition by_derive (f : list R -> R) (x : list R) : list R :=
  map (fun i => Derive (fun t => f (with_entry i t x)) (nth i x 0)) (seq 0 (length x)).
