(** Model of [Model.trajectory] and of [freeze_parameters] of demos/neurips20/cc.py (cc.py), on top of BlockModel and
    UtilsModel.

    Simplified: times are exact numbers. *)
From Coq Require Import List String Arith ZArith QArith Qcanon Bool.
From Verif Require Import Base Tensor ScdModel BlockModel IntegratorModel UtilsModel.
Import ListNotations.
Open Scope string_scope.
Open Scope list_scope.
Open Scope nat_scope.

Section Trajectory.
Context {A : Type}.
Variable zero : A.
Variable ig : @integrand A.
Variable has_attr : string -> bool.
Variable rnd : nat -> nat -> A.
Variable solve : @block A -> list A -> list Qc -> result (tensor A).

Notation "x <-- m ;;; k" := (mbind m (fun x => k))
  (at level 61, m at next level, right associativity).

(** cc.py:56: the block applied to the data in [Model.forward] *)
Definition apply_block (x : tensor A) : @M A (@outputs A) := forward zero ig has_attr rnd solve (Some x) None None None.

(** cc.py:45-50 [Model.trajectory] *)
Definition trajectory (x : tensor A) (N : Z) : @M A (@outputs A) :=
  t <-- lift (linspace 0%Qc 1%Qc N) ;;;
  _ <-- set_integration_time_vector t ;;;
  out <-- apply_block x ;;;
  _ <-- set_integration_time 1%Qc ;;;
  ret out.
End Trajectory.

(** cc.py:340-344 [freeze_parameters]: [state_dict()] holds new tensor objects which share the values of the
    parameters (PyTorch), and line 344 sets the attribute of these.  Together with the outcome the parameters after
    the call are returned. *)
Fixpoint freeze_detached (names : list string) (detached : params) (model : params) : result unit * params :=
  match names with
  | [] => (Ok tt, model)
  | pn :: rest =>
      match pd_get pn detached with
      | None => (Raise KeyError, model)
      | Some _ => freeze_detached rest (set_grad false pn detached) model
      end
  end.
(** cc.py:340-344; a tensor which was detached requires no gradient. *)
Definition cc_freeze_parameters (names : list string) (model : params) : result unit * params :=
  freeze_detached names (map (fun kv => (fst kv, mkPar (p_size (snd kv)) false)) model) model.
