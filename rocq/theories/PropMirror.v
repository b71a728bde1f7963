(** C147: mirror images of particles, costates and data. *)
From Coq Require Import List String Reals Arith QArith Qcanon Qreals Lia Lra.
From Verif Require Import Base RealSum IntegratorModel FixedGridModel ActivationModel ActivationSpec ActivationProofs VecModel
  ParticlesModel ParticlesExamples MirrorSpec MirrorProofs2.
Import ListNotations.
Open Scope string_scope.
Open Scope list_scope.
Open Scope R_scope.

(** Full statement of C147: whatever the activation, the derivatives of the mirror image are the mirror image of the
    derivatives.  False for the activations 'relu', 'sigmoid' and 'softmax'. *)
Theorem C147_every_activation_refuted :
  forall s, same_up_to_case s "relu" \/ same_up_to_case s "sigmoid" \/ same_up_to_case s "softmax" ->
  forall init, exists nl dnl m y, get_nonlinearity (Some s) = Ok (nl, dnl) /\ In m (vector_equations nl dnl init 1 1 None 1 1) /\
  (exists r, system_rhs m y = Ok r) /\
  system_rhs m (mirror_system y) <> bind (system_rhs m y) (fun r => Ok (mirror_system r)).
Proof. exact others_not_mirrored. Qed.
Print Assumptions C147_every_activation_refuted.

(** Without activation and for 'tanh' the mirror image gives the same weights and the opposite biases (missing: the
    other activations). *)
Theorem C147_parameters_partial :
  forall name nl dnl, get_nonlinearity name = Ok (nl, dnl) ->
  name = None \/ (exists s, name = Some s /\ (same_up_to_case s "identity" \/ same_up_to_case s "tanh")) ->
  forall init d e W ow N m, In m (vector_equations nl dnl init d e W ow N) ->
  forall s c, eq_parameters m (mirror s) (mirror c) = bind (eq_parameters m s c) (fun th => Ok (mirror_layers th)).
Proof.
  exact (fun name nl dnl G H init d e W ow N m I s c => let (A, B) := odd_by_name name nl dnl G H in
    parameters_mirror nl dnl A init d e W ow N m s c I).
Qed.
Print Assumptions C147_parameters_partial.

(** Then all derivatives are mirrored; errors are the same (missing: the other activations). *)
Theorem C147_derivatives_partial :
  forall name nl dnl, get_nonlinearity name = Ok (nl, dnl) ->
  name = None \/ (exists s, name = Some s /\ (same_up_to_case s "identity" \/ same_up_to_case s "tanh")) ->
  forall init d e W ow N m, In m (vector_equations nl dnl init d e W ow N) ->
  forall y, system_rhs m (mirror_system y) = bind (system_rhs m y) (fun r => Ok (mirror_system r)).
Proof.
  exact (fun name nl dnl G H init d e W ow N m I y => let (A, B) := odd_by_name name nl dnl G H in
    system_mirror nl dnl A B init d e W ow N m y I).
Qed.
Print Assumptions C147_derivatives_partial.

(** So are whole runs of the solvers with fixed steps, for all options and all times (missing: the other
    activations). *)
Theorem C147_runs_partial :
  forall name nl dnl, get_nonlinearity name = Ok (nl, dnl) ->
  name = None \/ (exists s, name = Some s /\ (same_up_to_case s "identity" \/ same_up_to_case s "tanh")) ->
  forall init d e W ow N m, In m (vector_equations nl dnl init d e W ow N) ->
  forall other adjoint solver o y t ys, In solver ["euler"; "midpoint"; "rk4"] ->
  fixed_odeint plus_system times_system (system_field m) other adjoint solver o (Ok y) t = Ok (map Ok ys) ->
  fixed_odeint plus_system times_system (system_field m) other adjoint solver o (Ok (mirror_system y)) t
  = Ok (map Ok (map mirror_system ys)).
Proof.
  exact (fun name nl dnl G H init d e W ow N m I other adj solver o y t ys => let (A, B) := odd_by_name name nl dnl G H in
    run_mirror nl dnl A B init d e W ow N m other adj solver o y t ys I).
Qed.
Print Assumptions C147_runs_partial.

(** The names are those of the code, whatever the case. *)
Example C147_names :
  get_nonlinearity (Some "Tanh") = Ok (tanh, dtanh) /\ same_up_to_case "Tanh" "tanh" /\ same_up_to_case "ReLU" "relu" /\
  get_nonlinearity None = Ok (identity, didentity).
Proof. repeat split; try (apply lower_same; reflexivity). Qed.

(** A run with one step: the sample at 5 moves to 11, its mirror image at -5 to -11. *)
Example C147_run :
  forall init, let m := mkEquations (simple_rhs identity) (simple_costate identity didentity 1) (simple_parameters identity init 1 None 1) in
  let run y := fixed_odeint plus_system times_system (system_field m) (fun _ _ _ _ _ => Raise ValueError) false "euler" []
                 (Ok y) [0%Qc; 1%Qc] in
  let sample r := match r with Ok [_; Ok (_, _, [(_, x)])] => v3 x 0%nat 0%nat 0%nat | _ => 0 end in
  In m (vector_equations identity didentity init 1 1 None 1 1) /\
  (exists ys, List.length ys = 2%nat /\ run (one_position, one_costate, some_data) = Ok (map Ok ys)) /\
  sample (run (one_position, one_costate, some_data)) = 11 /\
  sample (run (mirror_system (one_position, one_costate, some_data))) = - 11.
Proof.
  intros init m run sample. split; [cbn; tauto|]. split.
  - eexists [_; _]. split; [reflexivity|]. lazy -[Rplus Rmult Ropp Rinv Rdiv IZR INR Q2R rsum]. reflexivity.
  - split; lazy -[Rplus Rmult Ropp Rinv Rdiv IZR INR Q2R]; unfold Q2R; cbn; field.
Qed.
