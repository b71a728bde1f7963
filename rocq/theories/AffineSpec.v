(** Specification: mixtures of data. *)
From Coq Require Import List String Reals.
From Verif Require Import Base VecModel.
Import ListNotations.
Open Scope R_scope.

(** Arrays of the same size. *)
Definition alike (x y : t3) : Prop := n0 x = n0 y /\ n1 x = n1 y /\ n2 x = n2 y.

(** [a] parts of [x] and [1 - a] parts of [y]; for a = 1/2 the midpoint. *)
Definition mix (a : R) (x y : t3) : t3 := mkT3 (n0 x) (n1 x) (n2 x) (fun n i k => a * v3 x n i k + (1 - a) * v3 y n i k).

(** Dictionaries with the same names and sizes, and their mixtures. *)
Definition alikes (s r : states) : Prop := Forall2 (fun p q => fst p = fst q /\ alike (snd p) (snd q)) s r.
Definition mixes (a : R) (s r : states) : states :=
  map (fun pq => (fst (fst pq), mix a (snd (fst pq)) (snd (snd pq)))) (combine s r).

(** The same particles and costates, with a mixture of the data. *)
Definition mix_data (a : R) (y y' : states * states * states) : states * states * states :=
  let '(s, c, z) := y in let '(_, _, z') := y' in (s, c, mixes a z z').
