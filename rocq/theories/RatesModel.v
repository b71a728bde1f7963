(** Learning rates over the epochs of the demos (demos/neurips20/spiral.py, simple_functional_mapping_example.py = sfm.py, cc.py,
    rot.py, balls.py).

    The schedulers themselves are torch's (release 1.7.0, which README.md:40 names): [ReduceLROnPlateau] with its default
    arguments except for the factor, and [CosineAnnealingLR] with eta_min = 0.  Numbers are exact; the losses are given from
    outside.  When a scheduler is stepped is decided by FunctionalModel and LoopModel. *)
From Coq Require Import List String ZArith QArith Qcanon Bool Reals.
From Verif Require Import Base SchedulerModel FunctionalModel LoopModel.
Import ListNotations.
Open Scope string_scope.
Open Scope list_scope.

(** ** spiral.py and sfm.py *)

(** The attributes of [torch.optim.lr_scheduler.ReduceLROnPlateau] which change, with the learning rate of the optimizer
    (spiral.py:200, sfm.py:137). *)
Record plateau : Type := mkPlateau { p_best : num; p_bad : Z; p_lr : Qc }.

(** A new one: mode 'min', no bad epochs (spiral.py:197-200, sfm.py:134-137) *)
Definition new_plateau (lr : Qc) : plateau := mkPlateau PInf 0 lr.

(** [ReduceLROnPlateau.step] (spiral.py:594, sfm.py:650): patience 10, relative threshold 1e-4, no cooldown, smallest rate 0,
    eps 1e-8 *)
Definition reduce_on_plateau (factor : Qc) (loss : num) (p : plateau) : plateau :=
  let better := cmp_better (mkCmp "min" "rel" (Q2Qc (1 # 10000))) loss (p_best p) in
  let best := if better then loss else p_best p in
  let bad := if better then 0%Z else (p_bad p + 1)%Z in
  if (10 <? bad)%Z then
    let new := qmax (p_lr p * factor)%Qc 0%Qc in
    mkPlateau best 0 (if qltb (Q2Qc (1 # 100000000)) (p_lr p - new)%Qc then new else p_lr p)
  else mkPlateau best bad (p_lr p).

(** The factors (spiral.py:200, torch's default; sfm.py:137) *)
Definition spiral_factor : Qc := Q2Qc (1 # 10).
(** See [spiral_factor] (sfm.py:137). *)
Definition mapping_factor : Qc := Q2Qc (1 # 2).

(** The learning rate of every training step of a run, with its epoch (spiral.py:546-600, sfm.py:581-650); [loss k] is the loss
    evaluated in epoch [k] *)
Fixpoint rates (factor : Qc) (loss : Z -> num) (p : plateau) (log : list event) : list (Z * Qc) :=
  match log with
  | [] => []
  | Train k _ :: log => (k, p_lr p) :: rates factor loss p log
  | Sched k :: log => rates factor loss (reduce_on_plateau factor (loss k) p) log
  | _ :: log => rates factor loss p log
  end.

(** ** cc.py, rot.py and balls.py *)

Open Scope R_scope.

(** [CosineAnnealingLR.step] (cc.py:416, rot.py:370, balls.py:393) for one learning rate: [T] is [T_max], [base] the rate at the
    beginning, the state is [last_epoch] and the rate *)
Definition anneal (T : Z) (base : R) (s : Z * R) : result (Z * R) :=
  let last := (fst s + 1)%Z in
  if (last =? 0)%Z then Ok (last, base)
  else if (T =? 0)%Z then Raise ZeroDivisionError
  else if ((last - 1 - T) mod (2 * T) =? 0)%Z then Ok (last, snd s + base * (1 - cos (PI / IZR T)) / 2)
  else
    let d := 1 + cos (PI * IZR (last - 1) / IZR T) in
    if Req_EM_T d 0 then Raise ZeroDivisionError
    else Ok (last, (1 + cos (PI * IZR last / IZR T)) / d * snd s).

Section Annealed.
Context {V B O : Type}.
(** A training step with a learning rate, on the weights (rot.py:337-365, balls.py:371-385, cc.py:286-294). *)
Variable train : bool -> R -> V -> B -> V * (Qc * Qc * Qc).
(** A forward pass outside of training, see LoopModel. *)
Variable infer : bool -> V -> B -> V * O.
Variable errors_of : O -> list num.
(** Number of epochs and learning rate (rot.py:226-229, balls.py:238-241, cc.py:392-396). *)
Variable T : Z.
Variable lr : R.

(** The weights, the rates used so far, and the scheduler (rot.py:226-229, balls.py:238-241, cc.py:392-396). *)
Definition world : Type := (V * list R * result (Z * R))%type.
(** Before the training: making the scheduler sets [last_epoch] to 0 (rot.py:229, balls.py:241, cc.py:396). *)
Definition world0 (v : V) : world := (v, [], Ok (0%Z, lr)).
(** A training step with the current rate (rot.py:363, balls.py:381, cc.py:294); none after an exception *)
Definition train_step (flag : bool) (w : world) (b : B) : world * (Qc * Qc * Qc) :=
  let '(v, used, s) := w in
  match s with
  | Ok (last, r) => let (v, l) := train flag r v b in ((v, used ++ [r], s), l)
  | Raise _ => (w, (0%Qc, 0%Qc, 0%Qc))
  end.
(** Forward passes do not involve the optimizer (rot.py:233-246, balls.py:245-264, cc.py:299-337). *)
Definition infer_step (flag : bool) (w : world) (b : B) : world * O :=
  let '(v, used, s) := w in let (v, o) := infer flag v b in ((v, used, s), o).
(** [scheduler.step()] (rot.py:370, balls.py:393, cc.py:416) *)
Definition sched_world (w : world) : world := let '(v, used, s) := w in (v, used, x <- s ;; anneal T lr x).

(** The epochs of rot.py, balls.py and cc.py with the schedule (rot.py:330-388, balls.py:362-425, cc.py:388-419) *)
Definition rot_annealed (batches : nat -> list B) (testset : list B) (v : V) : result (net * list entry) :=
  rot_loop train_step infer_step errors_of sched_world batches testset (world0 v) (Z.to_nat T).
(** See [rot_annealed] (balls.py:362-425). *)
Definition balls_annealed (batches : nat -> list B) (testset valset : list B) (v : V) : result balls_state :=
  balls_main train_step infer_step errors_of sched_world batches testset valset (world0 v) (Z.to_nat T).
(** See [rot_annealed] (cc.py:388-419). *)
Definition cc_annealed (batches : nat -> list B) (testset : list B) (v : V) : result (net * list cc_row) :=
  cc_main train_step infer_step sched_world batches testset (world0 v) (Z.to_nat T).
End Annealed.
