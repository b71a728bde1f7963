(** What the tensorboard hook is expected to show. *)
From Coq Require Import List String ZArith QArith Qcanon Reals Bool.
From Verif Require Import Base Tensor EnergyModel TensorboardModel.
Import ListNotations.
Open Scope string_scope.
Open Scope list_scope.
Open Scope nat_scope.

(** The epoch in the hook data, zero if there is none. *)
Definition epoch_is (d : sdict hval) (k : Z) : Prop :=
  sd_get "epoch" d = Some (HInt k) \/ (sd_get "epoch" d = None /\ k = 0%Z).

(** Weight and bias of the layer which is shown. *)
Definition layer (os : pobjs) (w b : tensor R) : Prop :=
  exists o, sd_get "l1" os = Some o /\ sd_get "weight" (po_pars o) = Some w /\ sd_get "bias" (po_pars o) = Some b.

(** Tensors have as many elements as their shapes say. *)
Definition proper (os : pobjs) : Prop := forall w b, layer os w b -> twf b.

(** [es] shows the layer in epoch [k]: the weight is a matrix, the bias a list of at least two numbers. *)
Definition shows (k : Z) (os : pobjs) (es : list entry) : Prop :=
  exists w b n s b0 b1 bs, layer os w b /\ List.length (tshape w) = 2 /\
    tshape b = n :: s /\ prod s = 1 /\ 2 <= n /\ tdata b = b0 :: b1 :: bs /\
    es = [Scalar "bias0" b0 k; Scalar "bias1" b1 k; Image "weight" w k].
