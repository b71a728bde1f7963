(** C144: particles whose costates are zero. *)
From Coq Require Import List String Reals Arith QArith Qcanon Qreals Lia Lra.
From Verif Require Import Base RealSum IntegratorModel FixedGridModel VecModel ParticlesModel ParticlesSpec ParticlesExamples
  ScalingSpec SilentSpec SilentProofs2.
Import ListNotations.
Open Scope string_scope.
Open Scope list_scope.
Open Scope nat_scope.
Open Scope R_scope.

(** Expected: leaving out particles whose costates are zero does not change the derivatives of the data.  They
    count in the means. *)
Theorem C144_no_influence_refuted :
  exists A B y y', without A B y y' /\ (0 < A <= B)%nat /\
  forall init,
  let m n := mkEquations (simple_rhs (fun x => x)) (simple_costate (fun x => x) (fun _ => 1) n)
                         (simple_parameters (fun x => x) init 1 None n) in
  exists dz dz' x x', bind (system_rhs (m B) y) (fun r => Ok (snd r)) = Ok dz /\
    bind (system_rhs (m A) y') (fun r => Ok (snd r)) = Ok dz' /\
    dz = [("dot_q1", x)] /\ dz' = [("dot_q1", x')] /\ v3 x 0 0 0 = 3 /\ v3 x' 0 0 0 = 6.
Proof.
  exists 1%nat, 2%nat, (silent_position, silent_costate, some_data), (one_position, one_costate, some_data).
  split; [|split; [lia|]].
  - split; [|split; [|split; [|reflexivity]]]; repeat constructor.
    + cbn. intros [|n] i k H; [reflexivity|lia].
    + cbn. intros [|n] i k H; [reflexivity|lia].
    + cbn. intros [|n] i k H; [lia|reflexivity].
  - intros init. do 4 eexists. split; [|split; [|split; [|split]]]; [| |reflexivity|reflexivity|].
    + lazy -[Rplus Rmult Ropp Rinv Rdiv IZR INR rsum]. reflexivity.
    + lazy -[Rplus Rmult Ropp Rinv Rdiv IZR INR rsum]. reflexivity.
    + cbn. split; field.
Qed.
Print Assumptions C144_no_influence_refuted.

(** What holds: [B] particles, of which only the first [A] have costates, act as these [A] with [B/A] times the
    weight. *)
Theorem C144_derivatives_partial :
  forall A B, (0 < A)%nat -> (A <= B)%nat ->
  forall nl dnl init d e W W' ow ow',
  number W <> 0 -> number W' = INR B / INR A * number W -> ow <> 0 -> ow' = INR B / INR A * ow ->
  forall m m', In (m, m') (combine (vector_equations nl dnl init d e W ow B) (vector_equations nl dnl init d e W' ow' A)) ->
  forall y y' r, without A B y y' -> system_rhs m y = Ok r ->
  exists r', system_rhs m' y' = Ok r' /\ without A B r r'.
Proof.
  exact (fun A B A0 AB nl dnl init d e W W' ow ow' WN WW ON OO m m' I y y' r =>
    system_without A B A0 AB nl dnl init d e W W' ow ow' WN WW ON OO m m' y y' r I).
Qed.
Print Assumptions C144_derivatives_partial.

(** The same for whole runs; in particular the particles stay without costates. *)
Theorem C144_runs_partial :
  forall A B, (0 < A)%nat -> (A <= B)%nat ->
  forall nl dnl init d e W W' ow ow',
  number W <> 0 -> number W' = INR B / INR A * number W -> ow <> 0 -> ow' = INR B / INR A * ow ->
  forall m m', In (m, m') (combine (vector_equations nl dnl init d e W ow B) (vector_equations nl dnl init d e W' ow' A)) ->
  forall other adjoint name o y y' t ys, without A B y y' -> In name ["euler"; "midpoint"; "rk4"] ->
  fixed_odeint plus_system times_system (system_field m) other adjoint name o (Ok y) t = Ok (map Ok ys) ->
  exists ys', fixed_odeint plus_system times_system (system_field m') other adjoint name o (Ok y') t = Ok (map Ok ys')
    /\ Forall2 (without A B) ys ys'.
Proof.
  exact (fun A B A0 AB nl dnl init d e W W' ow ow' WN WW ON OO m m' I other adj name o y y' t ys =>
    run_without A B A0 AB nl dnl init d e W W' ow ow' WN WW ON OO m m' other adj name o y y' t ys I).
Qed.
Print Assumptions C144_runs_partial.

(** Two particles, the second without costate, and no weight: as the first one with weight 2. *)
Example C144_example :
  without 1 2 (silent_position, silent_costate, some_data) (one_position, one_costate, some_data) /\
  number None <> 0 /\ number (Some 2) = INR 2 / INR 1 * number None /\
  forall init, exists ys, List.length ys = 2%nat /\
     fixed_odeint plus_system times_system
       (system_field (mkEquations (simple_rhs (fun x => x)) (simple_costate (fun x => x) (fun _ => 1) 2)
                                  (simple_parameters (fun x => x) init 1 None 2)))
       (fun _ _ _ _ _ => Raise ValueError) false "euler" [] (Ok (silent_position, silent_costate, some_data)) [0%Qc; 1%Qc]
     = Ok (map Ok ys).
Proof.
  split; [|split; [|split]].
  - split; [|split; [|split; [|reflexivity]]]; repeat constructor.
    + cbn. intros [|n] i k H; [reflexivity|lia].
    + cbn. intros [|n] i k H; [reflexivity|lia].
    + cbn. intros [|n] i k H; [lia|reflexivity].
  - cbn. lra.
  - cbn. field.
  - intros init. eexists [_; _]. split; [reflexivity|].
    lazy -[Rplus Rmult Ropp Rinv Rdiv IZR INR Q2R rsum]. reflexivity.
Qed.
