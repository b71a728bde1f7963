(** Specification: orthogonal maps of the features of the first variable. *)
From Coq Require Import List String Reals Arith.
From Verif Require Import Base RealSum VecModel.
Import ListNotations.
Open Scope R_scope.

(** The rows of the matrix are orthonormal. *)
Definition orthogonal (d : nat) (O : nat -> nat -> R) : Prop :=
  forall j k, (j < d)%nat -> (k < d)%nat -> rsum d (fun i => O j i * O k i) = if Nat.eqb j k then 1 else 0.

(** Every row of features times the matrix. *)
Definition rotate (d : nat) (O : nat -> nat -> R) (x : t3) : t3 :=
  mkT3 (n0 x) (n1 x) (n2 x) (fun n i k => rsum d (fun j => v3 x n i j * O j k)).

(** The first variable ([q1] or its costate) is mapped, the others stay. *)
Definition rotate_first (d : nat) (O : nat -> nat -> R) (s : states) : states :=
  match s with [] => [] | (k, x) :: r => (k, rotate d O x) :: r end.

(** States, costates and data. *)
Definition rotate_system (d : nat) (O : nat -> nat -> R) (y : states * states * states) : states * states * states :=
  let '(s, c, z) := y in (rotate_first d O s, rotate_first d O c, rotate_first d O z).

(** The first variable has the given name and [d] features; the name is not used again. *)
Definition first_is (d : nat) (key : string) (s : states) : Prop :=
  exists x r, s = (key, x) :: r /\ n2 x = d /\ ~ In key (map fst r).

(** As the states, costates and data of a model with [d] features. *)
Definition with_features (d : nat) (y : states * states * states) : Prop :=
  let '(s, c, z) := y in first_is d "q1" s /\ first_is d "p_q1" c /\ first_is d "q1" z.
