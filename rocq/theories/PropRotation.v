(** C148: orthogonal maps of the features. *)
From Coq Require Import List String Reals Arith QArith Qcanon Qreals Lia Lra.
From Verif Require Import Base RealSum IntegratorModel FixedGridModel ActivationModel VecModel ParticlesModel RotationSpec
  RotationExamples RotationProofs3 RotationProofs4.
Import ListNotations.
Open Scope string_scope.
Open Scope list_scope.
Open Scope R_scope.

(** Full statement of C148: for each of the models, rotating the features of [q1] of particles, costates and data
    rotates the derivatives.  False for the model 'simple', which applies the activation to [q1] itself. *)
Theorem C148_every_model_refuted :
  forall init, exists m y O, orthogonal 2 O /\
  nth_error (vector_equations relu drelu init 2 1 None 1 1) 4 = Some m /\ with_features 2 y /\
  (exists r, system_rhs m y = Ok r) /\
  system_rhs m (rotate_system 2 O y) <> bind (system_rhs m y) (fun r => Ok (rotate_system 2 O r)).
Proof.
  intros init. destruct (simple_not_covariant init) as (m & y & H). exists m, y, some_rotation.
  split; [exact some_rotation_orthogonal|exact H].
Qed.
Print Assumptions C148_every_model_refuted.

(** True for the models at places 0, 1, 5, 6, 7: up-down, universal, dampened second variable, symmetrized and
    periodic (missing: the general up-down model and the two simple ones). *)
Theorem C148_derivatives_partial :
  forall d O, orthogonal d O ->
  forall nl dnl init e W ow N i m, In i [0; 1; 5; 6; 7]%nat ->
  nth_error (vector_equations nl dnl init d e W ow N) i = Some m ->
  forall y, with_features d y ->
  system_rhs m (rotate_system d O y) = bind (system_rhs m y) (fun r => Ok (rotate_system d O r)).
Proof.
  exact (fun d O H nl dnl init e W ow N i m I M y G =>
    derivatives_rot d O _ m y (free_turning d O H nl dnl init e W ow m (free_by_place nl dnl init d e W ow N i m I M)) G Logic.I).
Qed.
Print Assumptions C148_derivatives_partial.

(** So are whole runs of the solvers with fixed steps, for all options and all times (missing: as above). *)
Theorem C148_runs_partial :
  forall d O, orthogonal d O ->
  forall nl dnl init e W ow N i m, In i [0; 1; 5; 6; 7]%nat ->
  nth_error (vector_equations nl dnl init d e W ow N) i = Some m ->
  forall other adjoint name o y t ys, with_features d y -> In name ["euler"; "midpoint"; "rk4"] ->
  fixed_odeint plus_system times_system (system_field m) other adjoint name o (Ok y) t = Ok (map Ok ys) ->
  fixed_odeint plus_system times_system (system_field m) other adjoint name o (Ok (rotate_system d O y)) t
  = Ok (map Ok (map (rotate_system d O) ys)).
Proof.
  exact (fun d O H nl dnl init e W ow N i m I M other adj name o y t ys G =>
    run_rot d O _ m other adj name o y t ys (proj1 nothing_kept) (proj2 nothing_kept d m)
      (free_turning d O H nl dnl init e W ow m (free_by_place nl dnl init d e W ow N i m I M)) G Logic.I).
Qed.
Print Assumptions C148_runs_partial.

(** A rotation, and a run of the up-down model with relu which is rotated. *)
Example C148_example :
  orthogonal 2 some_rotation /\ with_features 2 east_pair /\
  forall init, exists m ys, nth_error (vector_equations relu drelu init 2 1 None 1 1) 0 = Some m /\ List.length ys = 2%nat /\
     fixed_odeint plus_system times_system (system_field m) (fun _ _ _ _ _ => Raise ValueError) false "euler" []
       (Ok east_pair) [0%Qc; 1%Qc] = Ok (map Ok ys).
Proof.
  split; [exact some_rotation_orthogonal|]. split.
  { unfold with_features, east_pair, first_is. repeat split; eexists _, [_]; (split; [reflexivity|split; [reflexivity|]]);
      cbn; intros [X|[]]; discriminate X. }
  intros init. eexists _, [_; _]. split; [reflexivity|]. split; [reflexivity|].
  lazy -[Rplus Rmult Ropp Rinv Rdiv IZR INR Q2R rsum relu drelu]. reflexivity.
Qed.
