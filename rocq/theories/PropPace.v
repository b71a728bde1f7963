(** C158: larger costates are longer times. *)
From Coq Require Import List String Reals Arith QArith Qcanon Qreals Lia Lra.
From Verif Require Import Base RealSum IntegratorModel FixedGridModel FixedGridSpec VecModel ParticlesModel ParticlesExamples
  ScalingSpec PaceSpec PaceProofs2 PaceProofs3.
Import ListNotations.
Open Scope string_scope.
Open Scope list_scope.
Open Scope R_scope.

(** The layers computed from [l] times the costates are [l] times the layers. *)
Theorem C158_parameters :
  forall l nl dnl init d e W ow N m s c, In m (vector_equations nl dnl init d e W ow N) ->
  bind (eq_parameters m s (multiple l c)) (fun th => Ok (layers th))
  = bind (eq_parameters m s c) (fun th => Ok (times_layers l (layers th))).
Proof. exact parameters_pace. Qed.
Print Assumptions C158_parameters.

(** ** C158.  False of the model whose second state is dampened (the sixth): for particles without costates the
    derivatives do not vanish and do not grow with the costates. *)
Definition pace_states : states := [("q1", mkT3 1 1 1 (fun _ _ _ => 0)); ("q2", mkT3 1 1 1 (fun _ _ _ => 1))].
Definition pace_costates : states := [("p_q1", mkT3 1 1 1 (fun _ _ _ => 0)); ("p_q2", mkT3 1 1 1 (fun _ _ _ => 0))].
(** The derivative of the second state. *)
Definition second_state (r : result (states * states * states)) : option R :=
  match r with Ok ([_; (_, x)], _, _) => Some (v3 x 0 0 0) | _ => None end.
Theorem C158_dampened_refuted :
  exists l nl dnl init d e W ow N m y,
  0 < l /\ nth_error (vector_equations nl dnl init d e W ow N) 5 = Some m /\
  second_state (system_rhs m (multiple_system l y)) <> second_state (bind (system_rhs m y) (fun r => Ok (faster l r))).
Proof.
  exists 2, (fun x => x), (fun _ => 1), (fun _ => (fun _ _ => 0, fun _ => 0)), 1%nat, 1%nat, None, 1, 1%nat.
  eexists; exists (pace_states, pace_costates, pace_states); split; [lra|]; split; [reflexivity|].
  lazy -[Rplus Rmult Ropp Rminus Rinv Rdiv IZR INR]; intro H; injection H as H; cbn [INR] in H; unfold Rdiv in H;
    rewrite ?Rinv_1 in H; lra.
Qed.
Print Assumptions C158_dampened_refuted.

(** True of the others: the derivatives of states and data are multiplied by [l], those of the costates by its square;
    errors are the same. *)
Theorem C158_derivatives_partial :
  forall l nl dnl init d e W ow N k m y,
  In k [0; 1; 2; 3; 4; 6; 7]%nat -> nth_error (vector_equations nl dnl init d e W ow N) k = Some m ->
  system_rhs m (multiple_system l y) = bind (system_rhs m y) (fun r => Ok (faster l r)).
Proof. exact system_pace. Qed.
Print Assumptions C158_derivatives_partial.

(** So [l] times the costates lead over the given times to where the costates lead over [l] times the times with [l]
    times the step size; the costates remain [l] times as large. *)
Theorem C158_runs_partial :
  forall l nl dnl init d e W ow N k m other other' adj name o o' y t ys, (0 < l)%Qc ->
  In k [0; 1; 2; 3; 4; 6; 7]%nat -> nth_error (vector_equations nl dnl init d e W ow N) k = Some m ->
  In name ["euler"; "midpoint"; "rk4"] -> longer_steps l o o' ->
  fixed_odeint plus_system times_system (system_field m) other adj name o' (Ok y) (longer l t) = Ok (map Ok ys) ->
  fixed_odeint plus_system times_system (system_field m) other' adj name o (Ok (multiple_system (real l) y)) t
  = Ok (map Ok (map (multiple_system (real l)) ys)).
Proof. exact run_pace. Qed.
Print Assumptions C158_runs_partial.

(** A negative factor reverses the time: negated costates lead back. *)
Theorem C158_backwards_partial :
  forall l nl dnl init d e W ow N k m other other' adj name o o' y t ys, (l < 0)%Qc -> (2 <= List.length t)%nat ->
  In k [0; 1; 2; 3; 4; 6; 7]%nat -> nth_error (vector_equations nl dnl init d e W ow N) k = Some m ->
  In name ["euler"; "midpoint"; "rk4"] -> longer_steps (- l)%Qc o o' ->
  fixed_odeint plus_system times_system (system_field m) other adj name o' (Ok y) (longer l t) = Ok (map Ok ys) ->
  fixed_odeint plus_system times_system (system_field m) other' adj name o (Ok (multiple_system (real l) y)) t
  = Ok (map Ok (map (multiple_system (real l)) ys)).
Proof. exact run_backwards. Qed.
Print Assumptions C158_backwards_partial.

(** A run over the times -1 and -2 (first the later one, without options). *)
Example C158_backwards_case :
  (Q2Qc (-1) < 0)%Qc /\ longer_steps (- Q2Qc (-1))%Qc [] [] /\ map this (longer (Q2Qc (-1)) [1; Q2Qc 2]%Qc) = [-1; -2]%Q /\
  forall init ow, exists m ys, nth_error (vector_equations (fun x => x) (fun _ => 1) init 1 1 None ow 2) 4 = Some m /\
    List.length ys = 2%nat /\
    fixed_odeint plus_system times_system (system_field m) (fun _ _ _ _ _ => Raise ValueError) false "euler" []
      (Ok (two_positions, two_costates, some_data)) (longer (Q2Qc (-1)) [1; Q2Qc 2]%Qc) = Ok (map Ok ys).
Proof.
  split; [reflexivity|]. split; [left; split; reflexivity|]. split; [vm_compute; reflexivity|].
  intros init ow. eexists. eexists [_; _]. split; [reflexivity|]. split; [reflexivity|].
  lazy -[Rplus Rmult Ropp Rinv Rdiv IZR INR Q2R rsum]; reflexivity.
Qed.

(** Options with and without a step size, and a run over twice the time. *)
Example C158_example :
  let l := Q2Qc 2 in
  longer_steps l [("step_size", ONum (Q2Qc (1 # 2)))] [("step_size", OInt 1)] /\ longer_steps l [] [] /\
  map this (longer l [0; 1]%Qc) = [0; 2]%Q /\ real l = 2 /\
  forall init ow, exists m ys, nth_error (vector_equations (fun x => x) (fun _ => 1) init 1 1 None ow 2) 4 = Some m /\
    List.length ys = 2%nat /\
    fixed_odeint plus_system times_system (system_field m) (fun _ _ _ _ _ => Raise ValueError) false "euler" []
      (Ok (two_positions, two_costates, some_data)) (longer l [0; 1]%Qc) = Ok (map Ok ys).
Proof.
  cbv zeta. split.
  { right. exists (Q2Qc (1 # 2)). split; [left; reflexivity|]. right. exists 1%Z. split; [reflexivity|].
    apply Qc_is_canon. vm_compute. reflexivity. }
  split; [left; split; reflexivity|]. split; [vm_compute; reflexivity|]. split; [unfold real, Q2R; cbn; lra|].
  intros init ow. eexists. eexists [_; _]. split; [reflexivity|]. split; [reflexivity|].
  lazy -[Rplus Rmult Ropp Rinv Rdiv IZR INR Q2R rsum]; reflexivity.
Qed.
