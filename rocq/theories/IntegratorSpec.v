(** Specification vocabulary for the integrator properties, independent of the
    model's functions. *)
From Coq Require Import List Arith Bool Sorting.Sorted.
From Verif Require Import Base.
Import ListNotations.

(** The times of an interval that are flagged for output. *)
Definition flagged1 {T} (ts : list T) (flags : list bool) : list T :=
  map fst (filter snd (combine ts flags)).

(** All output times of a family of intervals, in order. *)
Definition flagged {T} (ints : list (list T)) (outs : list (list bool)) : list T :=
  flat_map (fun p => flagged1 (fst p) (snd p)) (combine ints outs).

(** The interval runs from [a] to [b]: first point [a], last point [b], at least
    two points. *)
Definition runs {T} (a b : T) (l : list T) : Prop := exists m, l = a :: m ++ [b].

(** Consecutive intervals run along the consecutive pairs of a list of times. *)
Fixpoint chained {T} (cps : list T) (ints : list (list T)) : Prop :=
  match cps, ints with
  | a :: ((b :: _) as r), i :: ints' => runs a b i /\ chained r ints'
  | [_], [] => True
  | _, _ => False
  end.
