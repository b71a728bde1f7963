(** C150: another order of the features. *)
From Coq Require Import List String Reals Arith QArith Qcanon Qreals Lia Lra.
From Verif Require Import Base RealSum IntegratorModel FixedGridModel ActivationModel VecModel ParticlesModel RotationSpec
  RotationExamples RelabelSpec RelabelProofs2.
Import ListNotations.
Open Scope string_scope.
Open Scope list_scope.
Open Scope R_scope.

(** For each of the eight models and every activation: reordering the features of [q1] of particles, costates and data
    reorders the derivatives, and an exception stays the same exception.  For the two simple models the particles have
    the shape (particles, 1, features) which the scripts give them. *)
Theorem C150_derivatives :
  forall d p, permutes d p ->
  forall nl dnl init e W ow N i m, nth_error (vector_equations nl dnl init d e W ow N) i = Some m ->
  forall y, with_features d y -> (In i [3; 4]%nat -> flat_particles y) ->
  system_rhs m (reorder_system p y) = bind (system_rhs m y) (fun r => Ok (reorder_system p r)).
Proof. exact (fun d p P nl dnl init e W ow N i m M y => derivatives_reordered d p P nl dnl init e W ow N i m y M). Qed.
Print Assumptions C150_derivatives.

(** So are whole runs of the solvers with fixed steps, for all options and all times. *)
Theorem C150_runs :
  forall d p, permutes d p ->
  forall nl dnl init e W ow N i m, nth_error (vector_equations nl dnl init d e W ow N) i = Some m ->
  forall other adjoint name o y t ys, with_features d y -> (In i [3; 4]%nat -> flat_particles y) ->
  In name ["euler"; "midpoint"; "rk4"] ->
  fixed_odeint plus_system times_system (system_field m) other adjoint name o (Ok y) t = Ok (map Ok ys) ->
  fixed_odeint plus_system times_system (system_field m) other adjoint name o (Ok (reorder_system p y)) t
  = Ok (map Ok (map (reorder_system p) ys)).
Proof.
  exact (fun d p P nl dnl init e W ow N i m M other adj name o y t ys =>
    runs_reordered d p P nl dnl init e W ow N i m other adj name o y t ys M).
Qed.
Print Assumptions C150_runs.

(** The two features exchanged, and a run of the model 'simple' with relu (which the rotation of C148 does not rotate). *)
Example C150_example :
  permutes 2 exchanged /\ with_features 2 east_system /\ flat_particles east_system /\
  reorder_system exchanged east_system <> east_system /\
  forall init, exists m ys, nth_error (vector_equations relu drelu init 2 1 None 1 1) 4 = Some m /\ List.length ys = 2%nat /\
     fixed_odeint plus_system times_system (system_field m) (fun _ _ _ _ _ => Raise ValueError) false "euler" []
       (Ok east_system) [0%Qc; 1%Qc] = Ok (map Ok ys).
Proof.
  split.
  { split; [lia|]. split; [intros [|k]; cbn; lia|]. exists exchanged. intros [|[|k]] K; cbn; lia. }
  split.
  { unfold with_features, east_system, first_is. repeat split; eexists _, []; (split; [reflexivity|split; [reflexivity|cbn; tauto]]). }
  split; [split; reflexivity|]. split.
  { intros X. apply (f_equal (fun y => match y with ([(_, x)], _, _) => v3 x 0%nat 0%nat 0%nat | _ => 0 end)) in X. cbn in X. lra. }
  intros init. eexists _, [_; _]. split; [reflexivity|]. split; [reflexivity|].
  lazy -[Rplus Rmult Ropp Rinv Rdiv IZR INR Q2R rsum relu drelu]. reflexivity.
Qed.
