(** Specification for the vector models: gradients, the reduced Lagrangian and trajectories.
    [autograd.grad] (si.py:834-855, 883-889) returns partial derivatives. *)
From Coq Require Import List String Reals Arith.
From Verif Require Import Base Tensor RealSum VecModel.
Import ListNotations.
Open Scope R_scope.

Definition same_shape (x y : t3) : Prop := n0 x = n0 y /\ n1 x = n1 y /\ n2 x = n2 y.
Definition in_range (x : t3) (n i k : nat) : Prop := (n < n0 x)%nat /\ (i < n1 x)%nat /\ (k < n2 x)%nat.
Definition of_shape (a b c : nat) (x : t3) : Prop := n0 x = a /\ n1 x = b /\ n2 x = c.

(** A tensor with one entry replaced. *)
Definition upd3 (x : t3) (n i k : nat) (y : R) : t3 :=
  mkT3 (n0 x) (n1 x) (n2 x) (fun n' i' k' =>
    if Nat.eqb n' n then if Nat.eqb i' i then if Nat.eqb k' k then y else v3 x n' i' k' else v3 x n' i' k' else v3 x n' i' k').
Definition upd2 (x : t2) (i k : nat) (y : R) : t2 :=
  mkT2 (m0 x) (m1 x) (fun i' k' => if Nat.eqb i' i then if Nat.eqb k' k then y else v2 x i' k' else v2 x i' k').

(** [F] succeeds everywhere and has derivative [v] at [x]. *)
Definition has_derivative (F : R -> result R) (x v : R) : Prop :=
  exists f, (forall y, F y = Ok (f y)) /\ derivable_pt_lim f x v.

(** Same layers up to the values of the parameters. *)
Definition same_sizes (x y : t2) : Prop := m0 x = m0 y /\ m1 x = m1 y.
Definition same_layer (l m : lin) : Prop :=
  same_sizes (lin_weight l) (lin_weight m)
  /\ match lin_bias l, lin_bias m with Some b, Some b' => same_sizes b b' | None, None => True | _, _ => False end
  /\ weight_of_weight l = weight_of_weight m /\ weight_of_bias l = weight_of_bias m.
Definition same_objects (a b : pars) : Prop :=
  Forall2 (fun x y => fst x = fst y /\ same_layer (snd x) (snd y)) a b.

(** No weight counts as weight 1. *)
Definition effective (w : option R) : R := match w with None => 1 | Some w => w end.

(** [th] holds the parameters the integrand computes by differentiation at state [s] and costate [c]
    (si.py:873-897): entry by entry the partial derivative of the potential energy at the default
    objects [os], divided by the weight. *)
Definition autodiff_parameters (rhs : states -> pars -> result states) (os : pars) (s c : states) (th : pars) : Prop :=
  same_objects os th /\
  forall a o l m, nth_error os a = Some (o, l) -> nth_error th a = Some (o, m) ->
    (forall i k, (i < m0 (lin_weight l))%nat -> (k < m1 (lin_weight l))%nat ->
       has_derivative (fun y => potential_energy rhs s c (set_nth a (o, with_weight (upd2 (lin_weight l) i k y) l) os))
         (v2 (lin_weight l) i k) (effective (weight_of_weight l) * v2 (lin_weight m) i k))
    /\ (forall b b' i k, lin_bias l = Some b -> lin_bias m = Some b' -> (i < m0 b)%nat -> (k < m1 b)%nat ->
       has_derivative (fun y => potential_energy rhs s c (set_nth a (o, with_bias (upd2 b i k y) l) os))
         (v2 b i k) (effective (weight_of_bias l) * v2 b' i k)).

(** Value of the reduced Lagrangian (si.py:344-395): the Lagrangian at the parameters found by
    differentiation. *)
Definition reduced_lagrangian (rhs : states -> pars -> result states) (os : pars) (nr : nat) (s c : states) (v : R) : Prop :=
  exists th, autodiff_parameters rhs os s c th /\ lagrangian rhs nr s c th = Ok v.

(** [dp] holds the time derivatives of the costates obtained by differentiation (si.py:834-855): the
    partial derivatives of the reduced Lagrangian with respect to the states. *)
Definition autodiff_costates (rhs : states -> pars -> result states) (os : pars) (nr : nat) (s c dp : states) : Prop :=
  Forall2 (fun x y => fst y = String.append "dot_p_" (fst x) /\ same_shape (snd x) (snd y)) s dp /\
  forall a q x o dx n i k, nth_error s a = Some (q, x) -> nth_error dp a = Some (o, dx) -> in_range x n i k ->
    exists f, (forall y, reduced_lagrangian rhs os nr (set_nth a (q, upd3 x n i k y) s) c (f y))
              /\ derivable_pt_lim f (v3 x n i k) (v3 dx n i k).

(** Each entry of [X] has at time [t] the derivative given by [dx]. *)
Definition moves_along (X : R -> states) (t : R) (dx : states) : Prop :=
  forall a q x o d n i k, nth_error (X t) a = Some (q, x) -> nth_error dx a = Some (o, d) -> in_range x n i k ->
    derivable_pt_lim (fun u => match nth_error (X u) a with Some (_, y) => v3 y n i k | None => 0 end) t (v3 d n i k).

(** [Q], [P] solve the shooting equations: at each time, with the parameters belonging to the current
    state and costate, states move with [rhs] and costates with [costate]. *)
Definition shooting_solution (rhs : states -> pars -> result states) (costate : states -> states -> pars -> result states)
    (os : pars) (Q P : R -> states) : Prop :=
  forall t, exists th r dp, autodiff_parameters rhs os (Q t) (P t) th
    /\ rhs (Q t) th = Ok r /\ costate (Q t) (P t) th = Ok dp /\ moves_along Q t r /\ moves_along P t dp.

(** States and costates of the given names and sizes: [a] particles, dimension [b]. *)
Definition has_states (names : list (string * nat)) (prefix : string) (a b : nat) (s : states) : Prop :=
  Forall2 (fun nd qx => fst qx = String.append prefix (fst nd) /\ of_shape a b (snd nd) (snd qx)) names s.

(** [Q], [P] solve the equations with the hand-written parameters (use_analytic_solution, si.py:624-676, 743-745). *)
Definition analytic_solution (rhs : states -> pars -> result states) (costate : states -> states -> pars -> result states)
    (parameters : states -> states -> result pars) (Q P : R -> states) : Prop :=
  forall t, exists th r dp, parameters (Q t) (P t) = Ok th
    /\ rhs (Q t) th = Ok r /\ costate (Q t) (P t) th = Ok dp /\ moves_along Q t r /\ moves_along P t dp.

(** The part of [autodiff_parameters] about the weights of the layers. *)
Definition autodiff_weights (rhs : states -> pars -> result states) (os : pars) (s c : states) (th : pars) : Prop :=
  Forall2 (fun x y => fst x = fst y /\ same_sizes (lin_weight (snd x)) (lin_weight (snd y))) os th /\
  forall a o l m, nth_error os a = Some (o, l) -> nth_error th a = Some (o, m) ->
    forall i k, (i < m0 (lin_weight l))%nat -> (k < m1 (lin_weight l))%nat ->
      has_derivative (fun y => potential_energy rhs s c (set_nth a (o, with_weight (upd2 (lin_weight l) i k y) l) os))
         (v2 (lin_weight l) i k) (effective (weight_of_weight l) * v2 (lin_weight m) i k).

(** ** Claims about a model

    [rhs] is the model's right-hand side, [os] its default parameters, [names] its states with their
    numbers of features; [costate] and [parameters] are its hand-written equations, which may use the
    number of particles. *)

(** At the parameters found by differentiation the hand-written costate equations give the costates
    found by differentiation. *)
Definition analytic_costates_correct (rhs : states -> pars -> result states) (os : pars)
    (costate : nat -> states -> states -> pars -> result states) (names : list (string * nat)) : Prop :=
  forall N D s c th, (0 < N)%nat -> has_states names "" N D s -> has_states names "p_" N D c ->
    autodiff_parameters rhs os s c th ->
    exists dp, costate N s c th = Ok dp /\ autodiff_costates rhs os N s c dp.

(** The hand-written weights are those found by differentiation. *)
Definition analytic_weights_correct (rhs : states -> pars -> result states) (os : pars)
    (parameters : nat -> states -> states -> result pars) (names : list (string * nat)) : Prop :=
  forall N D s c, (0 < N)%nat -> has_states names "" N D s -> has_states names "p_" N D c ->
    exists th, parameters N s c = Ok th /\ autodiff_weights rhs os s c th.

(** If the particles have dimension [D], all hand-written parameters are those found by differentiation. *)
Definition analytic_parameters_correct (D : nat) (rhs : states -> pars -> result states) (os : pars)
    (parameters : nat -> states -> states -> result pars) (names : list (string * nat)) : Prop :=
  forall N s c, (0 < N)%nat -> has_states names "" N D s -> has_states names "p_" N D c ->
    exists th, parameters N s c = Ok th /\ autodiff_parameters rhs os s c th.

(** The reduced Lagrangian has derivative zero along any curve that at time [t] moves along the
    shooting equations. *)
Definition energy_stationary (rhs : states -> pars -> result states) (os : pars)
    (costate : nat -> states -> states -> pars -> result states) (names : list (string * nat)) : Prop :=
  forall N D (Q P : R -> states) t th r dp, (0 < N)%nat ->
    (forall u, has_states names "" N D (Q u)) -> (forall u, has_states names "p_" N D (P u)) ->
    autodiff_parameters rhs os (Q t) (P t) th -> rhs (Q t) th = Ok r -> costate N (Q t) (P t) th = Ok dp ->
    moves_along Q t r -> moves_along P t dp ->
    exists F, (forall u, reduced_lagrangian rhs os N (Q u) (P u) (F u)) /\ derivable_pt_lim F t 0.

(** Along every solution the reduced Lagrangian is defined and constant. *)
Definition energy_conserved (rhs : states -> pars -> result states) (os : pars)
    (costate : nat -> states -> states -> pars -> result states) (names : list (string * nat)) : Prop :=
  forall N D (Q P : R -> states), (0 < N)%nat ->
    (forall t, has_states names "" N D (Q t)) -> (forall t, has_states names "p_" N D (P t)) ->
    shooting_solution rhs (costate N) os Q P ->
    (forall t, exists v, reduced_lagrangian rhs os N (Q t) (P t) v) /\
    (forall t u v w, reduced_lagrangian rhs os N (Q t) (P t) v -> reduced_lagrangian rhs os N (Q u) (P u) w -> v = w).

(** The same for solutions with the hand-written parameters. *)
Definition energy_conserved_analytic (D : nat) (rhs : states -> pars -> result states) (os : pars)
    (costate : nat -> states -> states -> pars -> result states)
    (parameters : nat -> states -> states -> result pars) (names : list (string * nat)) : Prop :=
  forall N (Q P : R -> states), (0 < N)%nat ->
    (forall t, has_states names "" N D (Q t)) -> (forall t, has_states names "p_" N D (P t)) ->
    analytic_solution rhs (costate N) (parameters N) Q P ->
    (forall t, exists v, reduced_lagrangian rhs os N (Q t) (P t) v) /\
    (forall t u v w, reduced_lagrangian rhs os N (Q t) (P t) v -> reduced_lagrangian rhs os N (Q u) (P u) w -> v = w).

(** The time derivatives [r] have the keys and shapes of the states [s]. *)
Definition derivative_shapes (s r : states) : Prop :=
  Forall2 (fun x y => fst y = String.append "dot_" (fst x) /\ same_shape (snd x) (snd y)) s r.

(** For every particle number and dimension, all states of the given sizes and all parameters of the
    default sizes. *)
Definition shapes_preserved (rhs : states -> pars -> result states) (os : pars) (names : list (string * nat)) : Prop :=
  forall N D s th, has_states names "" N D s -> same_objects os th ->
    exists r, rhs s th = Ok r /\ derivative_shapes s r.

(** The same tensors, entry by entry. *)
Definition same_entries (s r : states) : Prop :=
  Forall2 (fun x y => fst x = fst y /\ same_shape (snd x) (snd y)
             /\ forall n i k, in_range (snd x) n i k -> v3 (snd x) n i k = v3 (snd y) n i k) s r.

(** Batch [y] consists of samples of batch [x]: sample [n] of [y] is sample [pick n] of [x]. *)
Definition picked3 (B B' : nat) (pick : nat -> nat) (x y : t3) : Prop :=
  n0 x = B /\ n0 y = B' /\ n1 x = n1 y /\ n2 x = n2 y
  /\ forall n i k, in_range y n i k -> v3 y n i k = v3 x (pick n) i k.
Definition picked (B B' : nat) (pick : nat -> nat) (x y : states) : Prop :=
  Forall2 (fun a b => fst a = fst b /\ picked3 B B' pick (snd a) (snd b)) x y.

(** Sample [m] of [x] and sample [n] of [y] have the same entries. *)
Definition same_sample (m n : nat) (x y : states) : Prop :=
  Forall2 (fun a b => fst a = fst b /\ n1 (snd a) = n1 (snd b) /\ n2 (snd a) = n2 (snd b)
     /\ forall i k, (i < n1 (snd a))%nat -> (k < n2 (snd a))%nat -> v3 (snd a) m i k = v3 (snd b) n i k) x y.

(** All tensors of the dictionary hold [B] samples. *)
Definition batch_of (B : nat) (x : states) : Prop := Forall (fun qx => n0 (snd qx) = B) x.

(** Both succeed with related results, or both raise the same exception. *)
Definition both {X Y} (R : X -> Y -> Prop) (a : result X) (b : result Y) : Prop :=
  match a, b with Ok x, Ok y => R x y | Raise e, Raise e' => e = e' | _, _ => False end.

(** The right-hand side treats the samples of a batch separately, whatever the parameters. *)
Definition samplewise (rhs : states -> pars -> result states) : Prop :=
  forall B B' pick x y th, (forall n, n < B' -> pick n < B)%nat -> picked B B' pick x y ->
    both (picked B B' pick) (rhs x th) (rhs y th).

(** Sample [m] of a batch alone. *)
Definition sample (m : nat) (x : states) : states :=
  map (fun qx => (fst qx, mkT3 1 (n1 (snd qx)) (n2 (snd qx)) (fun _ => v3 (snd qx) m))) x.
