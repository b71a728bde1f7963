(** Specification vocabulary: the differential equations of the vector models, particle by particle. *)
From Coq Require Import List String Reals Arith.
From Verif Require Import Base RealSum VecModel VecSpec.
Import ListNotations.
Open Scope string_scope.
Open Scope R_scope.

(** The affine map [x -> W x + b] of a layer. *)
Definition affine (l : lin) (x : nat -> R) (k : nat) : R :=
  rsum (m1 (lin_weight l)) (fun j => v2 (lin_weight l) k j * x j)
  + match lin_bias l with Some b => v2 b 0 k | None => 0 end.

(** The affine map of the layer named [o], and the feature vector of the state named [q] at particle [n], row [i]. *)
Definition maps (th : pars) (o : string) : (nat -> R) -> nat -> R :=
  match sd_get o th with Some l => affine l | None => fun _ _ => 0 end.
Definition features (s : states) (n i : nat) (q : string) : nat -> R :=
  match sd_get q s with Some x => v3 x n i | None => fun _ => 0 end.

(** The right-hand side of an equation: from the maps [L] and the feature vectors [x], feature [k] of the derivative. *)
Notation equation := ((string -> (nat -> R) -> nat -> R) -> (string -> nat -> R) -> nat -> R).

(** [r] holds for every state the derivative given by its equation. *)
Definition solves (eqs : list (string * equation)) (s : states) (th : pars) (r : states) : Prop :=
  derivative_shapes s r /\ map fst s = map fst eqs /\
  forall a q x o dx q' eq n i k, nth_error s a = Some (q, x) -> nth_error r a = Some (o, dx) ->
    nth_error eqs a = Some (q', eq) -> in_range x n i k ->
    v3 dx n i k = eq (maps th) (features s n i) k.

(** The right-hand side of the model is given by the equations, for all states and parameters of its sizes. *)
Definition obeys (rhs : states -> pars -> result states) (os : pars) (names : list (string * nat))
    (eqs : list (string * equation)) : Prop :=
  forall N D s th, has_states names "" N D s -> same_objects os th ->
    exists r, rhs s th = Ok r /\ solves eqs s th r.

(** Applying [nl] to every feature. *)
Definition of_all (nl : R -> R) (x : nat -> R) : nat -> R := fun j => nl (x j).

(** The equations. *)
Definition updown_eqs nl : list (string * equation) :=
  [("q1", fun L x => L "l1" (of_all nl (x "q2"))); ("q2", fun L x => L "l2" (x "q1"))].
Definition universal_eqs nl : list (string * equation) :=
  [("q1", fun L x => L "l1" (of_all nl (x "q2")));
   ("q2", fun L x k => L "l2" (x "q1") k + L "l3" (of_all nl (x "q2")) k)].
Definition general_eqs nl : list (string * equation) :=
  [("q1", fun L x k => L "l11" (of_all nl (x "q2")) k + L "l12" (x "q1") k + L "l13" (of_all nl (x "q1")) k + L "l14" (x "q2") k);
   ("q2", fun L x k => L "l21" (x "q1") k + L "l22" (x "q2") k + L "l23" (of_all nl (x "q2")) k + L "l24" (of_all nl (x "q1")) k)].
Definition simple_eqs nl : list (string * equation) := [("q1", fun L x => L "l1" (of_all nl (x "q1")))].
Definition debug_eqs nl : list (string * equation) :=
  [("q1", fun L x => L "l1" (of_all nl (x "q1"))); ("q2", fun L x => L "l2" (of_all nl (x "q2")))].
(** The dampening factor -1/2 is subtracted: the second state is amplified. *)
Definition dampened_q2_eqs nl : list (string * equation) :=
  [("q1", fun L x => L "l1" (of_all nl (x "q2"))); ("q2", fun L x k => L "l2" (x "q1") k + / 2 * x "q2" k)].
Definition symmetrized_eqs nl : list (string * equation) :=
  [("q1", fun L x => L "l1" (of_all nl (x "q2"))); ("q2", fun L x => L "l2" (of_all nl (x "q3")));
   ("q3", fun L x => L "l3" (x "q1"))].
Definition periodic_eqs nl : list (string * equation) :=
  [("q1", fun L x k => L "l1" (of_all nl (x "q2")) k + L "l3" (x "q1") k); ("q2", fun L x => L "l2" (x "q1"))].

(** The model with dampening factors: one number per particle and state.  They are constant and act, through
    [nl], on their state; only here does the nonlinearity also act on the first state. *)
Definition dampened_solves (nl : R -> R) (c1 c2 q1 q2 : t3) (th : pars) (r : states) : Prop :=
  let s := [("c1", c1); ("c2", c2); ("q1", q1); ("q2", q2)] in
  derivative_shapes s r /\
  exists d1 d2 r1 r2, r = [("dot_c1", d1); ("dot_c2", d2); ("dot_q1", r1); ("dot_q2", r2)] /\
    (forall n i k, in_range c1 n i k -> v3 d1 n i k = 0) /\ (forall n i k, in_range c2 n i k -> v3 d2 n i k = 0) /\
    (forall n i k, in_range q1 n i k ->
       v3 r1 n i k = maps th "l1" (of_all nl (features s n i "q2")) k - nl (v3 c1 n 0 0) * v3 q1 n i k) /\
    (forall n i k, in_range q2 n i k ->
       v3 r2 n i k = maps th "l2" (of_all nl (features s n i "q1")) k - nl (v3 c2 n 0 0) * v3 q2 n i k).

(** ** Dampening *)

(** All layers are zero. *)
Definition silent (th : pars) : Prop :=
  Forall (fun ol => (forall i k, v2 (lin_weight (snd ol)) i k = 0) /\
                    forall b, lin_bias (snd ol) = Some b -> forall i k, v2 b i k = 0) th.

(** The curve [X] of states solves the equations of [rhs] with the constant parameters [th]. *)
Definition follows (rhs : states -> pars -> result states) (th : pars) (X : R -> states) : Prop :=
  forall t, exists r, rhs (X t) th = Ok r /\ moves_along X t r.

(** Entry of the state named [q]. *)
Definition entry (s : states) (q : string) (n i k : nat) : R :=
  match sd_get q s with Some x => v3 x n i k | None => 0 end.

(** Left alone (layers zero), the state named [q] with [d] features never moves away from zero. *)
Definition dampens (rhs : states -> pars -> result states) (os : pars) (sized : nat -> nat -> states -> Prop)
    (q : string) (d : nat) : Prop :=
  forall N D th X, same_objects os th -> silent th -> (forall t, sized N D (X t)) -> follows rhs th X ->
    forall t u n i k, t <= u -> (n < N)%nat -> (i < D)%nat -> (k < d)%nat ->
      Rabs (entry (X u) q n i k) <= Rabs (entry (X t) q n i k).
