(** What the discrete networks of simple_discrete_neural_networks.py are expected to
    compute, entry by entry and without the model's functions. *)
From Coq Require Import List String Reals Arith.
From Verif Require Import Base RealSum VecModel VecSpec.
Import ListNotations.
Open Scope R_scope.

(** A layer with [i] inputs and [o] outputs, with or without offset. *)
Definition linear_layer (i o : nat) (bias : bool) (l : lin) : Prop :=
  m0 (lin_weight l) = o /\ m1 (lin_weight l) = i /\
  if bias then exists b, lin_bias l = Some b /\ m0 b = 1%nat /\ m1 b = o else lin_bias l = None.

(** Its factors and offsets. *)
Definition factor (l : lin) (k j : nat) : R := v2 (lin_weight l) k j.
Definition offset (l : lin) (k : nat) : R := match lin_bias l with Some b => v2 b 0%nat k | None => 0 end.

(** The positive part of a number. *)
Definition pos (x : R) : R := if Rle_dec 0 x then x else 0.

(** Values after [n] residual layers with one factor and one offset each. *)
Fixpoint resnet_value (layer : nat -> lin) (n : nat) (x : R) : R :=
  match n with
  | O => x
  | S m => let y := resnet_value layer m x in
           y + (factor (layer m) 0 0 * pos y + offset (layer m) 0)
  end.

(** A shallow net with [f] hidden units; [act] is applied to the input. *)
Definition shallow (f : nat) (act : R -> R) (inner outer : lin) (x : R) : R :=
  rsum f (fun j => factor outer 0 j * pos (factor inner j 0 * act x + offset inner j)) + offset outer 0.

(** Values after [n] residual layers that are shallow nets. *)
Fixpoint updown_value (f : nat) (inner outer : nat -> lin) (n : nat) (x : R) : R :=
  match n with
  | O => x
  | S m => let y := updown_value f inner outer m x in y + shallow f pos (inner m) (outer m) y
  end.

(** Values after [n] double layers: the first state is moved by the second one, then
    the second state by the moved first one. *)
Fixpoint double_value (f : nat) (down up : nat -> lin) (n : nat) (x : R) (z : nat -> R) : R * (nat -> R) :=
  match n with
  | O => (x, z)
  | S m =>
      let (y, w) := double_value f down up m x z in
      let y' := y + (rsum f (fun j => factor (down m) 0 j * pos (w j)) + offset (down m) 0) in
      (y', fun j => w j + factor (up m) j 0 * pos y')
  end.

(** [n] steps of the explicit Euler method with step size [h]. *)
Fixpoint euler (F : R -> R) (h : R) (n : nat) (x : R) : R :=
  match n with
  | O => x
  | S m => let y := euler F h m x in y + h * F y
  end.

(** [y] solves [y' = F(y)] on [0,1]. *)
Definition solves (F : R -> R) (y : R -> R) : Prop :=
  forall t, 0 <= t <= 1 -> derivable_pt_lim y t (F (y t)).

(** ** Parameters across layers *)

(** A name without dots. *)
Definition no_dots (s : string) : Prop := forall p q, s <> (p ++ "." ++ q)%string.

(** Neighbours in a list differ. *)
Fixpoint neighbours_differ (l : list string) : Prop :=
  match l with
  | a :: ((b :: _) as r) => a <> b /\ neighbours_differ r
  | _ => True
  end.

(** The named parameters of a network [a] with the given layers: layer names, each
    with names and values of its parameters. *)
Definition network_parameters {V} (a : string) (layers : list (string * list (string * V))) : list (string * V) :=
  flat_map (fun l => map (fun pv => ((a ++ "." ++ fst l ++ "." ++ fst pv)%string, snd pv)) (snd l)) layers.
