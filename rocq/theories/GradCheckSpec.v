(** Specification of the gradient comparison. *)
From Coq Require Import List String Bool Reals Arith.
From Verif Require Import Base GradCheckModel.
Import ListNotations.
Open Scope string_scope.
Open Scope list_scope.
Open Scope R_scope.

(** The two gradients vanish at the same entries. *)
Definition same_zeros (autodiff analytic : list R) : Prop := Forall2 (fun a b => a = 0 <-> b = 0) autodiff analytic.

(** They agree up to the tolerance, relative to the gradient of the hand-written equations. *)
Definition close (tolerance : R) (autodiff analytic : list R) : Prop :=
  Forall2 (fun a b => (a = 0 <-> b = 0) /\ (b <> 0 -> Rabs (a - b) < tolerance * Rabs b)) autodiff analytic.

(** One parameter: its name, its gradient by differentiation, its gradient by the hand-written equations. *)
Definition parameter := (string * (list R * list R))%type.
Definition name_of (p : parameter) := fst p.
Definition by_autodiff (p : parameter) := fst (snd p).
Definition by_analytic (p : parameter) := snd (snd p).

(** The gradients of a model whose parameters are [ps]. *)
Definition gradients_of (ps : list parameter) : gradients :=
  mkGradients (map (fun p => (name_of p, Some (by_analytic p))) ps) (map (fun p => (name_of p, Some (by_autodiff p))) ps).

(** The names of the parameters of a model differ; both gradients have the same size and the gradient is
    not zero everywhere. *)
Definition comparable (p : parameter) : Prop :=
  List.length (by_autodiff p) = List.length (by_analytic p) /\ exists x, In x (by_analytic p) /\ x <> 0.
Definition well_named (ps : list parameter) : Prop := NoDup (map name_of ps).

Definition is_passed (v : verdict) : Prop := match v with Passed _ => True | _ => False end.

(** The largest relative deviation. *)
Definition largest_deviation (autodiff analytic : list R) (e : R) : Prop :=
  (forall i a b, nth_error autodiff i = Some a -> nth_error analytic i = Some b -> b <> 0 -> Rabs (a / b - 1) <= e)
  /\ exists i a b, nth_error autodiff i = Some a /\ nth_error analytic i = Some b /\ b <> 0 /\ e = Rabs (a / b - 1).

(** The outcome for one parameter. *)
Definition right_verdict (tolerance : R) (autodiff analytic : list R) (v : verdict) : Prop :=
  match v with
  | Passed e => same_zeros autodiff analytic /\ largest_deviation autodiff analytic e /\ e < tolerance
  | FailedError e => same_zeros autodiff analytic /\ largest_deviation autodiff analytic e /\ tolerance <= e
  | FailedPattern => ~ same_zeros autodiff analytic
  end.

(** How many tests passed. *)
Definition count_passed (l : list (string * verdict)) : nat :=
  List.length (filter (fun nv => match snd nv with Passed _ => true | _ => false end) l).
