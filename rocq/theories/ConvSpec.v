(** Notions for the convolutional models. *)
From Coq Require Import List String Bool Reals Arith.
From Verif Require Import Base ConvModel.
Import ListNotations.
Open Scope string_scope.

Definition of_shape4 (a b c d : nat) (x : t4) : Prop := k0 x = a /\ k1 x = b /\ k2 x = c /\ k3 x = d.

(** States of the given names and channels: [n] particles of height [h] and width [w]. *)
Definition has_images (names : list (string * nat)) (n h w : nat) (s : images) : Prop :=
  Forall2 (fun nc qx => fst qx = fst nc /\ of_shape4 n (snd nc) h w (snd qx)) names s.

(** Derivatives with the given spatial size: [h] by [w]. *)
Definition derivatives_of_size (h w : nat) (s r : images) : Prop :=
  Forall2 (fun x y => fst y = String.append "dot_" (fst x) /\ of_shape4 (k0 (snd x)) (k1 (snd x)) h w (snd y)) s r.

(** Layers with tensors of the same sizes and the same settings. *)
Definition same_conv (l m : conv) : Prop :=
  of_shape4 (k0 (cv_weight l)) (k1 (cv_weight l)) (k2 (cv_weight l)) (k3 (cv_weight l)) (cv_weight m)
  /\ cv_nb l = cv_nb m /\ cv_pad0 l = cv_pad0 m /\ cv_pad1 l = cv_pad1 m /\ cv_circular l = cv_circular m.
Definition same_convs (a b : convs) : Prop := Forall2 (fun x y => fst x = fst y /\ same_conv (snd x) (snd y)) a b.

(** Some samples of a batch of images, as in VecSpec.v. *)
Definition picked4 (B B' : nat) (pick : nat -> nat) (x y : t4) : Prop :=
  k0 x = B /\ k0 y = B' /\ k1 x = k1 y /\ k2 x = k2 y /\ k3 x = k3 y
  /\ forall n c y1 z, (n < B' -> c < k1 y -> y1 < k2 y -> z < k3 y -> v4 y n c y1 z = v4 x (pick n) c y1 z)%nat.
Definition picked_images (B B' : nat) (pick : nat -> nat) (x y : images) : Prop :=
  Forall2 (fun a b => fst a = fst b /\ picked4 B B' pick (snd a) (snd b)) x y.

(** The right-hand side treats the samples of a batch separately, whatever the parameters. *)
Definition samplewise_images (rhs : images -> convs -> result images) : Prop :=
  forall B B' pick x y th, (forall n, n < B' -> pick n < B)%nat -> picked_images B B' pick x y ->
    match rhs x th, rhs y th with
    | Ok r, Ok r' => picked_images B B' pick r r'
    | Raise e, Raise e' => e = e'
    | _, _ => False
    end.
