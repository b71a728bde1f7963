(** Vocabulary for the scheduler properties. *)
From Coq Require Import List String ZArith QArith Qcanon Bool.
From Verif Require Import Base SchedulerModel.
Import ListNotations.
Open Scope string_scope.
Open Scope list_scope.

(** A metric history is a list of calls [step(metric, epoch)]; [after] is the
    scheduler with the learning rates after a history. *)
Definition after (ms : list (num * option Z)) (sl : sched * list Qc) : sched * list Qc := fst (steps ms sl).

(** Element-wise comparison of the groups' learning rates. *)
Definition all_le (l l' : list Qc) : Prop := Forall2 Qcle l l'.

(** The same for a history in which no step raises. *)
Definition run_all (ms : list (num * option Z)) (sl : sched * list Qc) : sched * list Qc :=
  fold_left (fun sl m => fst (step (fst m) (snd m) sl)) ms sl.

(** [a < b] for metrics; never with NaN. *)
Inductive below : num -> num -> Prop :=
| below_fin x y : (x < y)%Qc -> below (Fin x) (Fin y)
| below_pinf x : below (Fin x) PInf
| below_ninf x : below NInf (Fin x)
| below_inf : below NInf PInf.

(** Without a best value yet, or with an infinite one. *)
Definition infinite (a : num) : Prop := a = PInf \/ a = NInf.

(** The bar a metric must pass to improve on [best]: relative to [best] or at the distance [th]. *)
Inductive is_bar (mode tmode : string) (th : Qc) : num -> num -> Prop :=
| bar_min_rel b : mode = "min" -> tmode = "rel" -> is_bar mode tmode th (Fin b) (Fin (b - b * th))
| bar_max_rel b : mode = "max" -> tmode = "rel" -> is_bar mode tmode th (Fin b) (Fin (b + b * th))
| bar_min_abs b : mode = "min" -> tmode = "abs" -> is_bar mode tmode th (Fin b) (Fin (b - th))
| bar_max_abs b : mode = "max" -> tmode = "abs" -> is_bar mode tmode th (Fin b) (Fin (b + th))
| bar_inf_abs b : tmode = "abs" -> infinite b -> is_bar mode tmode th b b
| bar_inf_rel b : tmode = "rel" -> infinite b ->
    (mode = "min" /\ th < 1 \/ mode = "max" /\ -(1) < th)%Qc -> is_bar mode tmode th b b
| bar_inf_neg b b' : tmode = "rel" -> infinite b -> infinite b' -> b <> b' ->
    (mode = "min" /\ 1 < th \/ mode = "max" /\ th < -(1))%Qc -> is_bar mode tmode th b b'.

(** The metric [a] is an improvement on [best]. *)
Definition improvement (mode tmode : string) (th : Qc) (a best : num) : Prop :=
  exists bar, is_bar mode tmode th best bar /\ (mode = "min" /\ below a bar \/ mode = "max" /\ below bar a).

(** No epoch of [ms] brings an improvement; none is in cooldown. *)
Fixpoint bad_epochs (mode tmode : string) (th : Qc) (ms : list (num * option Z)) (sl : sched * list Qc) : Prop :=
  match ms with
  | [] => True
  | m :: rest =>
      ~ improvement mode tmode th (fst m) (s_best (fst sl)) /\
      (s_cooldown_counter (fst sl) <= 0)%Z /\
      bad_epochs mode tmode th rest (fst (step (fst m) (snd m) sl))
  end.

(** What reducing one group's learning rate would give. *)
Definition reduced (factor old min : Qc) (new : Qc) : Prop :=
  (old * factor <= new)%Qc /\ (min <= new)%Qc /\ (new = old * factor \/ new = min)%Qc.

(** What can be observed of a scheduler: learning rates and convergence flag. *)
Definition observable (sl : sched * list Qc) : list Qc * bool :=
  (snd sl, has_convergence_been_reached (fst sl)).
