(** Specification vocabulary: derivatives of several blocks that are evaluated together. *)
From Coq Require Import List String ZArith QArith Qcanon.
From Verif Require Import Base Tensor ScdSpec BlockSpec IntegrandModel.
Import ListNotations.
Open Scope nat_scope.

Section Spec.
Context {A P E H C : Type}.
Notation tdict := (sdict (tensor A)).
Notation tdicts := (sdict (sdict (tensor A))).
Variable m : @model A P E H C.

(** Tensor by tensor the same shapes. *)
Definition shapes_of (c r : tdict) : Prop :=
  dict_wf r /\ Forall2 (fun a b => tshape (snd a) = tshape (snd b)) c r.

(** The equations of the model compute, for every variable, a derivative of its shape. *)
Definition keeps_shapes : Prop :=
  (forall t c p r, dict_wf c -> m_rhs m t c p = Ok r -> shapes_of c r) /\
  (forall t c cc p r, dict_wf c -> dict_wf cc -> m_costate m t c cc p = Ok r -> shapes_of cc r).

(** [out] holds for every block of [d] its part of [r], where the parts are laid side by
    side along [dim]. *)
Definition taken_apart (dim : nat) (d : tdicts) (r : tdict) (out : tdicts) : Prop :=
  keys out = keys d /\
  forall pre n b post, d = pre ++ (n, b) :: post ->
    exists rb, In (n, rb) out /\ keys rb = keys r /\
      forall kc tc k t, In ((kc, tc), (k, t)) (combine r b) ->
        exists sl, In (kc, sl) rb /\ tshape sl = tshape t /\
          forall idx, valid_idx (tshape t) idx ->
            tget sl idx = tget tc (set_nth dim (nth dim idx 0 + offset dim k pre) idx).

(** [out] are the derivatives of the blocks [d] by the state equation, evaluated once for all
    of them laid side by side. *)
Definition state_derivatives (t : Qc) (p : P) (dim : nat) (d out : tdicts) : Prop :=
  exists c r, side_by_side dim d c /\ m_rhs m t c p = Ok r /\ taken_apart dim d r out.

(** The same for the costate equation. *)
Definition costate_derivatives (t : Qc) (p : P) (dim : nat) (st co out : tdicts) : Prop :=
  exists c cc r, side_by_side dim st c /\ side_by_side dim co cc /\ m_costate m t c cc p = Ok r /\
    taken_apart dim co r out.
End Spec.
