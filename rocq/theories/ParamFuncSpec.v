(** Vocabulary for the properties of time-dependent parameter lookup. *)
From Coq Require Import List ZArith QArith Qcanon Sorting.Sorted.
From Verif Require Import ParamFuncModel.
Import ListNotations.
Open Scope nat_scope.

Definition at_ (l : list Qc) (i : nat) : Qc := nth i l 0%Qc.

(** Grid position [j] is the closest one not after [t]. *)
Definition is_floor (times : list Qc) (t : Qc) (j : nat) : Prop :=
  j < List.length times /\ (at_ times j <= t)%Qc /\
  forall k, j < k -> k < List.length times -> (t < at_ times k)%Qc.

(** A grid with one parameter set per time, and a cache that designates the
    cached time. *)
Definition coherent {P} (s : @param_func P) : Prop :=
  StronglySorted Qclt (pf_times s) /\ pf_times s <> [] /\
  List.length (pf_params s) = List.length (pf_times s) /\
  at_ (pf_times s) 0 = pf_min_t s /\
  exists i, i < List.length (pf_times s) /\ pf_last_idx s = Z.of_nat i /\
    pf_last_time s = at_ (pf_times s) i.
