(** Specification for the standalone up-down script: its formulas, the explicit midpoint rule and the
    convergence of difference quotients. *)
From Coq Require Import List String Reals Arith.
From Verif Require Import Base RealSum VecModel VecSpec.
Import ListNotations.
Open Scope string_scope.
Open Scope R_scope.

(** The script's states: particles and momenta of one sort with [d], of the other with [e] features. *)
Definition standalone_states (N D d e : nat) (s : sdict t3) : Prop :=
  exists p1 p2 q1 q2, s = [("p1", p1); ("p2", p2); ("q1", q1); ("q2", q2)]
    /\ of_shape N D d p1 /\ of_shape N D e p2 /\ of_shape N D d q1 /\ of_shape N D e q2.

(** The package's states and costates. *)
Definition package_states (s : sdict t3) : states :=
  match s with [_; _; (_, q1); (_, q2)] => [("q1", q1); ("q2", q2)] | _ => [] end.
Definition package_costates (s : sdict t3) : states :=
  match s with [(_, p1); (_, p2); _; _] => [("p_q1", p1); ("p_q2", p2)] | _ => [] end.

(** Comparing difference quotients [g] with the derivatives [c] ([fd h] gives both for the step [h]):
    for [h] to zero, [g + sign * c] tends to zero at all particles, features and the first [rows] of the
    dimensions. *)
Definition gradient_check (fd : R -> result (t3 * t3)) (sign : R) (N D m rows : nat) : Prop :=
  exists c, of_shape N D m c /\ (forall h, h <> 0 -> exists g, fd h = Ok (g, c) /\ of_shape N D m g)
    /\ forall n i k, (n < N)%nat -> (i < D)%nat -> (i < rows)%nat -> (k < m)%nat -> forall delta, 0 < delta ->
      exists eta, 0 < eta /\ forall h g, h <> 0 -> Rabs h < eta -> fd h = Ok (g, c) ->
        Rabs (v3 g n i k + sign * v3 c n i k) < delta.

(** [Y] is [X] moved by [h] along [F]. *)
Definition moved_along (h : R) (F X Y : sdict t3) : Prop :=
  Forall2 (fun x y => fst x = fst y /\ same_shape (snd x) (snd y)) X Y /\
  forall a q x f y n i k, nth_error X a = Some (q, x) -> In (q, f) F -> nth_error Y a = Some (q, y) -> in_range x n i k ->
    v3 y n i k = v3 x n i k + h * v3 f n i k.

(** One step of size [h] of the explicit midpoint rule for the field [rhs]. *)
Definition midpoint_step (rhs : sdict t3 -> result (sdict t3)) (h : R) (X Y : sdict t3) : Prop :=
  exists F M F', rhs X = Ok F /\ moved_along (h / 2) F X M /\ rhs M = Ok F' /\ moved_along h F' X Y.

(** First entry of the state of the given name. *)
Definition first_entry (name : string) (X : sdict t3) : R :=
  match sd_get name X with Some x => v3 x 0 0 0 | None => 0 end.
