(** Model of ParticleFreeParameterFunc, neuro_shooting/shooting_blocks.py:11-84
    ("sb.py" below).  Times are exact rationals (see IntegratorModel). *)
From Coq Require Import List String ZArith QArith Qcanon Bool.
From Verif Require Import Base IntegratorModel.
Import ListNotations.
Open Scope nat_scope.

(** [l[i]] with Python's negative indices. *)
Definition py_item {A} (l : list A) (i : Z) : result A :=
  let n := Z.of_nat (List.length l) in
  if Z.leb 0 i && Z.ltb i n then list_item l (Z.to_nat i)
  else if Z.ltb i 0 && Z.leb (- n) i then list_item l (Z.to_nat (i + n))
  else Raise IndexError.

(** Comparisons of times (sb.py:47-81). *)
Definition qlt (a b : Qc) : bool := match Qccompare a b with Lt => true | _ => false end.
(** Equality of times (sb.py:50-58). *)
Definition qeq (a b : Qc) : bool := match Qccompare a b with Eq => true | _ => false end.

Section ParamFunc.
Context {P : Type}.
(** [self.parameter_creation_func()]: what its i-th call returns. *)
Variable create : nat -> P.

(** sb.py:15-31: the attributes. *)
Record param_func : Type := mkPF {
  pf_min_t : Qc;
  pf_max_t : Qc;
  pf_times : list Qc;
  pf_params : list P;
  pf_last_idx : Z;
  pf_last_time : Qc }.

(** sb.py:13-31 [__init__], with sb.py:33-39 [create_time_parameters]. *)
Definition new_param_func (time_dependent_steps : Z) (integration_time : list Qc)
  : result param_func :=
  min_t <- py_item integration_time 0 ;;
  max_t <- py_item integration_time (-1) ;;
  times <- (if Z.ltb 1 time_dependent_steps then
              l <- linspace min_t max_t (time_dependent_steps + 1) ;; Ok (removelast l)
            else Ok [min_t]) ;;
  last <- py_item times 0 ;;
  Ok (mkPF min_t max_t times (map create (seq 0 (List.length times))) 0 last).

(** sb.py:66-68: the loop searching to the left.  [fuel] bounds the number of
    iterations; running out of it (shown to be impossible) is AssertionError. *)
Fixpoint search_left (fuel : nat) (times : list Qc) (t : Qc) (idx : Z) (last : Qc)
  : result (Z * Qc) :=
  if qlt t last then
    match fuel with
    | O => Raise AssertionError
    | S f => last' <- py_item times (idx - 1) ;; search_left f times t (idx - 1) last'
    end
  else Ok (idx, last).

(** sb.py:79-81: the loop searching to the right. *)
Fixpoint search_right (fuel : nat) (times : list Qc) (t : Qc) (idx : Z) (last : Qc)
  : result (Z * Qc) :=
  if qlt last t then
    match fuel with
    | O => Raise AssertionError
    | S f => last' <- py_item times (idx + 1) ;; search_right f times t (idx + 1) last'
    end
  else Ok (idx, last).

(** The attributes remembering the last use (sb.py:60-84). *)
Definition set_last_used (s : param_func) (idx : Z) (last : Qc) : param_func :=
  mkPF (pf_min_t s) (pf_max_t s) (pf_times s) (pf_params s) idx last.

(** sb.py:44-84 [get_parameters_at_time].  (The state is only observed after
    calls that return, so it is returned with the value.) *)
Definition get_parameters_at_time (s : param_func) (t : Qc) : result (P * param_func) :=
  let params := pf_params s in
  let times := pf_times s in
  let n := Z.of_nat (List.length params) in
  let fuel := List.length times + List.length times + 1 in
  if Z.eqb n 1 then
    p <- py_item params 0 ;; Ok (p, s)
  else if qlt t (pf_min_t s) then
    last <- py_item times 0 ;;
    p <- py_item params 0 ;;
    Ok (p, set_last_used s 0 last)
  else if qlt (pf_max_t s) t then
    last <- py_item times (-1) ;;
    p <- py_item params (-1) ;;
    Ok (p, set_last_used s (n - 1) last)
  else if qlt t (pf_last_time s) then
    '(idx, last) <- search_left fuel times t (pf_last_idx s) (pf_last_time s) ;;
    p <- py_item params idx ;;
    Ok (p, set_last_used s idx last)
  else
    tl <- py_item times (-1) ;;
    if negb (qlt t tl) then
      p <- py_item params (-1) ;;
      Ok (p, set_last_used s (n - 1) tl)
    else if qeq t (pf_last_time s) then
      p <- py_item params (pf_last_idx s) ;; Ok (p, s)
    else if qlt (pf_last_time s) t then
      '(idx, last) <- search_right fuel times t (pf_last_idx s) (pf_last_time s) ;;
      p <- py_item params idx ;;
      Ok (p, set_last_used s idx last)
    else Raise ValueError.

(** A history of queries. *)
Fixpoint queries (s : param_func) (ts : list Qc) : result (list P * param_func) :=
  match ts with
  | [] => Ok ([], s)
  | t :: r =>
      '(p, s') <- get_parameters_at_time s t ;;
      '(ps, s'') <- queries s' r ;;
      Ok (p :: ps, s'')
  end.
End ParamFunc.
