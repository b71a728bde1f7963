(** What a training loop should do, independent of LoopModel's functions. *)
From Coq Require Import List ZArith QArith Qcanon Bool.
From Verif Require Import Base SchedulerModel.
Import ListNotations.
Open Scope nat_scope.

(** The order of floats without NaN. *)
Inductive le_num : num -> num -> Prop :=
  | le_fin : forall x y : Qc, (x <= y)%Qc -> le_num (Fin x) (Fin y)
  | le_pinf : forall a, a <> NaN -> le_num a PInf
  | le_ninf : forall a, a <> NaN -> le_num NInf a.

(** The arithmetic mean of rationals. *)
Definition mean (l : list Qc) : Qc :=
  (fold_right Qcplus 0 l / Q2Qc (inject_Z (Z.of_nat (length l))))%Qc.

Section Spec.
  Context {W B L : Type}.
  Variable step : bool -> W -> B -> W * L.
  Variable sched : W -> W.

  (** The values after training on the batches one after the other, in training
      mode or not. *)
  Fixpoint trained_on (train : bool) (w : W) (bs : list B) : W :=
    match bs with
    | [] => w
    | b :: r => trained_on train (fst (step train w b)) r
    end.

  (** The losses reported on the way. *)
  Fixpoint losses_on (train : bool) (w : W) (bs : list B) : list L :=
    match bs with
    | [] => []
    | b :: r => snd (step train w b) :: losses_on train (fst (step train w b)) r
    end.

  (** The values after [k] epochs, epoch [i] being run in mode [mode i] on the
      batches [batches i], with a scheduler step after each. *)
  Fixpoint weights_after (mode : nat -> bool) (batches : nat -> list B) (w0 : W) (k : nat) : W :=
    match k with
    | O => w0
    | S i => sched (trained_on (mode i) (weights_after mode batches w0 i) (batches i))
    end.
End Spec.
