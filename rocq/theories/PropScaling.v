(** C143: only the ratio of the costates and the weight of the penalty matters. *)
From Coq Require Import List String Reals Arith QArith Qcanon Qreals Lia Lra.
From Verif Require Import Base RealSum IntegratorModel FixedGridModel VecModel ParticlesModel ParticlesExamples ScalingSpec
  ScalingProofs2.
Import ListNotations.
Open Scope string_scope.
Open Scope list_scope.
Open Scope R_scope.

(** The layers computed from multiples of the costates with multiples of the weights are the same; the penalty is
    multiplied. *)
Theorem C143_parameters :
  forall l, l <> 0 ->
  forall nl dnl init d e W W' ow ow' N, number W <> 0 -> number W' = l * number W -> ow <> 0 -> ow' = l * ow ->
  forall m m', In (m, m') (combine (vector_equations nl dnl init d e W ow N) (vector_equations nl dnl init d e W' ow' N)) ->
  forall s c,
  bind (eq_parameters m' s (multiple l c)) (fun th => Ok (layers th)) = bind (eq_parameters m s c) (fun th => Ok (layers th)) /\
  bind (eq_parameters m' s (multiple l c)) (fun th => Ok (kinetic_energy th))
  = bind (eq_parameters m s c) (fun th => Ok (l * kinetic_energy th)).
Proof.
  exact (fun l L nl dnl init d e W W' ow ow' N WN WW ON OO m m' I s c =>
    conj (parameters_multiple l L nl dnl init d e W W' ow ow' N WN WW ON OO m m' s c I)
         (penalty_multiple l L nl dnl init d e W W' ow ow' N WN WW ON OO m m' s c I)).
Qed.
Print Assumptions C143_parameters.

(** The derivatives of states and data are the same, those of the costates are multiplied; errors are the same. *)
Theorem C143_derivatives :
  forall l, l <> 0 ->
  forall nl dnl init d e W W' ow ow' N, number W <> 0 -> number W' = l * number W -> ow <> 0 -> ow' = l * ow ->
  forall m m', In (m, m') (combine (vector_equations nl dnl init d e W ow N) (vector_equations nl dnl init d e W' ow' N)) ->
  forall y, system_rhs m' (multiple_system l y) = bind (system_rhs m y) (fun r => Ok (multiple_system l r)).
Proof.
  exact (fun l L nl dnl init d e W W' ow ow' N WN WW ON OO m m' I y =>
    system_multiple l L nl dnl init d e W W' ow ow' N WN WW ON OO m m' y I).
Qed.
Print Assumptions C143_derivatives.

(** So are whole runs of the solvers with fixed steps, for all options and all times. *)
Theorem C143_runs :
  forall l, l <> 0 ->
  forall nl dnl init d e W W' ow ow' N, number W <> 0 -> number W' = l * number W -> ow <> 0 -> ow' = l * ow ->
  forall m m', In (m, m') (combine (vector_equations nl dnl init d e W ow N) (vector_equations nl dnl init d e W' ow' N)) ->
  forall other adjoint name o y t ys, In name ["euler"; "midpoint"; "rk4"] ->
  fixed_odeint plus_system times_system (system_field m) other adjoint name o (Ok y) t = Ok (map Ok ys) ->
  fixed_odeint plus_system times_system (system_field m') other adjoint name o (Ok (multiple_system l y)) t
  = Ok (map Ok (map (multiple_system l) ys)).
Proof.
  exact (fun l L nl dnl init d e W W' ow ow' N WN WW ON OO m m' I other adj name o y t ys =>
    run_multiple_ok l L nl dnl init d e W W' ow ow' N WN WW ON OO m m' other adj name o y t ys I).
Qed.
Print Assumptions C143_runs.

(** No weight and costates 1 give the parameters of weight 3 and costates 3; with weight 3 alone they are a third. *)
Example C143_example :
  forall init,
  let par W c := match simple_parameters (fun x => x) init 1 W 2 two_positions c with
                 | Ok [(_, l)] => v2 (lin_weight l) 0 0 | _ => 0 end in
  number (Some 3) = 3 * number None /\
  par None two_costates = 1 / 2 /\ par (Some 3) (multiple 3 two_costates) = 1 / 2 /\ par (Some 3) two_costates = 1 / 6.
Proof. intros init. cbn. repeat split; field. Qed.

(** A run with one step exists. *)
Example C143_run :
  forall init, exists ys, List.length ys = 2%nat /\
     fixed_odeint plus_system times_system
       (system_field (mkEquations (simple_rhs (fun x => x)) (simple_costate (fun x => x) (fun _ => 1%R) 2)
                                  (simple_parameters (fun x => x) init 1 None 2)))
       (fun _ _ _ _ _ => Raise ValueError) false "euler" [] (Ok (two_positions, two_costates, some_data)) [0%Qc; 1%Qc]
     = Ok (map Ok ys).
Proof.
  intros init. eexists [_; _]. split; [reflexivity|].
  lazy -[Rplus Rmult Ropp Rinv Rdiv IZR INR Q2R rsum]. reflexivity.
Qed.
