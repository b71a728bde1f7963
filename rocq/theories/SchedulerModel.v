(** Model of neuro_shooting/custom_lr_scheduler.py ([lr.py] below).

    Simplifications: metrics are exact rationals extended with +inf, -inf and
    NaN; learning rates, [factor], [min_lr], [eps] and [threshold] are finite
    exact rationals (no float rounding); [patience] and [cooldown] are integers.
    Printing ([verbose]) is not modelled. *)
From Coq Require Import List String ZArith QArith Qcanon Bool.
From Verif Require Import Base.
Import ListNotations.
Open Scope string_scope.
Open Scope list_scope.

(** Float values of metrics (Python / IEEE comparison semantics). *)
Inductive num : Type := Fin (q : Qc) | PInf | NInf | NaN.

(** [a < b] on finite numbers. *)
Definition qltb (a b : Qc) : bool := match (a ?= b)%Qc with Lt => true | _ => false end.

(** [a < b] on floats: false as soon as one is NaN. *)
Definition num_ltb (a b : num) : bool :=
  match a, b with
  | NaN, _ | _, NaN => false
  | Fin x, Fin y => qltb x y
  | Fin _, PInf => true
  | Fin _, NInf => false
  | NInf, NInf => false
  | NInf, _ => true
  | PInf, _ => false
  end.

(** [-a] on floats (lr.py:58, 176). *)
Definition num_opp (a : num) : num :=
  match a with Fin x => Fin (- x)%Qc | PInf => NInf | NInf => PInf | NaN => NaN end.

(** [a * q] for a finite [q]; inf * 0 is NaN. *)
Definition num_scale (a : num) (q : Qc) : num :=
  match a with
  | Fin x => Fin (x * q)%Qc
  | NaN => NaN
  | PInf => match (q ?= 0)%Qc with Eq => NaN | Lt => NInf | Gt => PInf end
  | NInf => match (q ?= 0)%Qc with Eq => NaN | Lt => PInf | Gt => NInf end
  end.

(** [a + q] for a finite [q]. *)
Definition num_shift (a : num) (q : Qc) : num :=
  match a with Fin x => Fin (x + q)%Qc | _ => a end.

(** What [functools.partial(self._cmp, mode, threshold_mode, threshold)] holds. *)
Record cmp_args : Type := mkCmp { c_mode : string; c_tmode : string; c_threshold : Qc }.

(** lr.py:152-165 [_cmp]. *)
Definition cmp_better (c : cmp_args) (a best : num) : bool :=
  if (c_mode c =? "min") && (c_tmode c =? "rel") then
    num_ltb a (num_scale best (1 - c_threshold c)%Qc)
  else if (c_mode c =? "min") && (c_tmode c =? "abs") then
    num_ltb a (num_shift best (- c_threshold c)%Qc)
  else if (c_mode c =? "max") && (c_tmode c =? "rel") then
    num_ltb (num_scale best (c_threshold c + 1)%Qc) a
  else num_ltb (num_shift best (c_threshold c)) a.

(** The attributes of the scheduler, lr.py:64-95; [s_current] exists only after
    the first step (lr.py:109). *)
Record sched : Type := mkSched {
  s_factor : Qc;
  s_min_lrs : list Qc;
  s_patience : Z;
  s_cooldown : Z;
  s_cooldown_counter : Z;
  s_mode : string;
  s_threshold : Qc;
  s_tmode : string;
  s_best : num;
  s_bad : Z;
  s_mode_worse : num;
  s_is_better : cmp_args;
  s_eps : Qc;
  s_last_epoch : Z;
  s_converged : bool;
  s_current : option num }.

(** lr.py:167-178 [_init_is_better]: [mode_worse] and the partial application. *)
Definition init_is_better (mode tmode : string) (threshold : Qc) : result (num * cmp_args) :=
  if negb ((mode =? "min") || (mode =? "max")) then Raise ValueError
  else if negb ((tmode =? "rel") || (tmode =? "abs")) then Raise ValueError
  else Ok (if mode =? "min" then PInf else NInf, mkCmp mode tmode threshold).

(** The [min_lr] argument: a number, or a list or tuple of numbers. *)
Inductive min_arg : Type := MinScalar (q : Qc) | MinList (l : list Qc).

(** lr.py:58-97 [__init__] for an optimizer with [n] parameter groups (the
    TypeError for a non-optimizer is not modelled); 97 is [_reset]. *)
Definition new_sched (n : nat) (mode : string) (factor : Qc) (patience : Z) (threshold : Qc)
    (tmode : string) (cooldown : Z) (min_lr : min_arg) (eps : Qc) : result sched :=
  if negb (qltb factor 1) then Raise ValueError
  else
    mins <- (match min_lr with
             | MinList l => if Nat.eqb (List.length l) n then Ok l else Raise ValueError
             | MinScalar q => Ok (repeat q n)
             end) ;;
    ' (worse, c) <- init_is_better mode tmode threshold ;;
    Ok (mkSched factor mins patience cooldown 0 mode threshold tmode worse 0 worse c eps (-1) false None).

(** lr.py:102-106 [_reset]. *)
Definition reset (s : sched) : sched :=
  mkSched (s_factor s) (s_min_lrs s) (s_patience s) (s_cooldown s) 0 (s_mode s) (s_threshold s)
    (s_tmode s) (s_mode_worse s) 0 (s_mode_worse s) (s_is_better s) (s_eps s) (s_last_epoch s)
    (s_converged s) (s_current s).

(** [self.convergence_reached = True], lr.py:145. *)
Definition set_converged (s : sched) : sched :=
  mkSched (s_factor s) (s_min_lrs s) (s_patience s) (s_cooldown s) (s_cooldown_counter s) (s_mode s)
    (s_threshold s) (s_tmode s) (s_best s) (s_bad s) (s_mode_worse s) (s_is_better s) (s_eps s)
    (s_last_epoch s) true (s_current s).

(** Assignments to [best], [num_bad_epochs] and [cooldown_counter] in [step],
    lr.py:115-128. *)
Definition set_counters (best : num) (bad counter : Z) (s : sched) : sched :=
  mkSched (s_factor s) (s_min_lrs s) (s_patience s) (s_cooldown s) counter (s_mode s) (s_threshold s)
    (s_tmode s) best bad (s_mode_worse s) (s_is_better s) (s_eps s) (s_last_epoch s) (s_converged s)
    (s_current s).

(** lr.py:109, 111-113: [current] and [last_epoch]. *)
Definition set_epoch (metrics : num) (epoch : option Z) (s : sched) : sched :=
  mkSched (s_factor s) (s_min_lrs s) (s_patience s) (s_cooldown s) (s_cooldown_counter s) (s_mode s)
    (s_threshold s) (s_tmode s) (s_best s) (s_bad s) (s_mode_worse s) (s_is_better s) (s_eps s)
    (match epoch with None => s_last_epoch s + 1 | Some e => e end)%Z (s_converged s) (Some metrics).

(** [max(old_lr * self.factor, self.min_lrs[i])], lr.py:133. *)
Definition qmax (a b : Qc) : Qc := if qltb a b then b else a.

(** lr.py:130-145 [_reduce_lr] for the groups from index [i] on, whose learning
    rates are [lrs].  An IndexError of [self.min_lrs[i]] leaves the later groups
    as they are. *)
Fixpoint reduce_lr (i : nat) (lrs : list Qc) (s : sched) : (sched * list Qc) * result unit :=
  match lrs with
  | [] => ((s, []), Ok tt)
  | old :: rest =>
      match list_item (s_min_lrs s) i with
      | Raise e => ((s, lrs), Raise e)
      | Ok m =>
          let new := qmax (old * s_factor s)%Qc m in
          let '(lr, s') := if qltb (s_eps s) (old - new)%Qc then (new, reset s) else (old, set_converged s) in
          let '((s'', rest'), r) := reduce_lr (S i) rest s' in
          ((s'', lr :: rest'), r)
      end
  end.

(** lr.py:115-123: the counters before the decision in [step]. *)
Definition count_epoch (metrics : num) (s : sched) : sched :=
  let better := cmp_better (s_is_better s) metrics (s_best s) in
  let best := if better then metrics else s_best s in
  let bad := if better then 0%Z else (s_bad s + 1)%Z in
  if (0 <? s_cooldown_counter s)%Z then set_counters best 0 (s_cooldown_counter s - 1) s
  else set_counters best bad (s_cooldown_counter s) s.

(** lr.py:108-128 [step] on the scheduler and the groups' learning rates. *)
Definition step (metrics : num) (epoch : option Z) (sl : sched * list Qc) : (sched * list Qc) * result unit :=
  let s := count_epoch metrics (set_epoch metrics epoch (fst sl)) in
  if (s_patience s <? s_bad s)%Z then
    match reduce_lr 0 (snd sl) s with
    | ((s', lrs'), Ok _) => ((set_counters (s_best s') 0 (s_cooldown s') s', lrs'), Ok tt)
    | (sl', Raise e) => (sl', Raise e)
    end
  else ((s, snd sl), Ok tt).

(** Several steps; an exception stops. *)
Fixpoint steps (ms : list (num * option Z)) (sl : sched * list Qc) : (sched * list Qc) * result unit :=
  match ms with
  | [] => (sl, Ok tt)
  | m :: rest =>
      match step (fst m) (snd m) sl with
      | (sl', Ok _) => steps rest sl'
      | (sl', Raise e) => (sl', Raise e)
      end
  end.

(** lr.py:99-100 [has_convergence_been_reached]. *)
Definition has_convergence_been_reached (s : sched) : bool := s_converged s.

(** lr.py:180-181 [state_dict]: the attributes except [optimizer] and
    [is_better]; [current] only if it exists. *)
Record saved : Type := mkSaved {
  v_factor : Qc; v_min_lrs : list Qc; v_patience : Z; v_cooldown : Z; v_cooldown_counter : Z;
  v_mode : string; v_threshold : Qc; v_tmode : string; v_best : num; v_bad : Z; v_mode_worse : num;
  v_eps : Qc; v_last_epoch : Z; v_converged : bool; v_current : option num }.

(** lr.py:180-181 *)
Definition state_dict (s : sched) : saved :=
  mkSaved (s_factor s) (s_min_lrs s) (s_patience s) (s_cooldown s) (s_cooldown_counter s) (s_mode s)
    (s_threshold s) (s_tmode s) (s_best s) (s_bad s) (s_mode_worse s) (s_eps s) (s_last_epoch s)
    (s_converged s) (s_current s).

(** lr.py:183-185 [load_state_dict]: update the attributes, then
    [_init_is_better].  Attributes missing in the saved state ([current]) are kept. *)
Definition load_state_dict (v : saved) (s : sched) : sched * result unit :=
  let upd worse c :=
    mkSched (v_factor v) (v_min_lrs v) (v_patience v) (v_cooldown v) (v_cooldown_counter v) (v_mode v)
      (v_threshold v) (v_tmode v) (v_best v) (v_bad v) worse c (v_eps v) (v_last_epoch v)
      (v_converged v) (match v_current v with Some m => Some m | None => s_current s end) in
  match init_is_better (v_mode v) (v_tmode v) (v_threshold v) with
  | Ok (worse, c) => (upd worse c, Ok tt)
  | Raise e => (upd (v_mode_worse v) (s_is_better s), Raise e)
  end.
