(** C154: another order of the inner units. *)
From Coq Require Import List String Reals Arith QArith Qcanon Qreals Lia Lra.
From Verif Require Import Base RealSum IntegratorModel FixedGridModel ActivationModel VecModel ParticlesModel
  RotationExamples RelabelSpec InnerSpec InnerProofs2.
Import ListNotations.
Open Scope string_scope.
Open Scope list_scope.
Open Scope R_scope.

(** The six models with inner units (places 0, 1, 2, 5, 6 and 7: up-down, universal, general, dampened, symmetrized and
    periodic): reordering the units of [q2] of particles, costates and data reorders those of the derivatives, and an
    exception stays the same exception. *)
Theorem C154_derivatives :
  forall u p, permutes u p ->
  forall nl dnl init d e W ow N i m, In i [0; 1; 2; 5; 6; 7]%nat -> nth_error (vector_equations nl dnl init d e W ow N) i = Some m ->
  forall y, with_units u y ->
  system_rhs m (reorder_inner p y) = bind (system_rhs m y) (fun r => Ok (reorder_inner p r)).
Proof. exact (fun u p P nl dnl init d e W ow N i m I M y => derivatives_units u p P nl dnl init d e W ow N i m y I M). Qed.
Print Assumptions C154_derivatives.

(** So are whole runs of the solvers with fixed steps, for all options and all times. *)
Theorem C154_runs :
  forall u p, permutes u p ->
  forall nl dnl init d e W ow N i m, In i [0; 1; 2; 5; 6; 7]%nat -> nth_error (vector_equations nl dnl init d e W ow N) i = Some m ->
  forall other adjoint name o y t ys, with_units u y -> In name ["euler"; "midpoint"; "rk4"] ->
  fixed_odeint plus_system times_system (system_field m) other adjoint name o (Ok y) t = Ok (map Ok ys) ->
  fixed_odeint plus_system times_system (system_field m) other adjoint name o (Ok (reorder_inner p y)) t
  = Ok (map Ok (map (reorder_inner p) ys)).
Proof.
  exact (fun u p P nl dnl init d e W ow N i m I M other adj name o y t ys =>
    runs_units u p P nl dnl init d e W ow N i m other adj name o y t ys I M).
Qed.
Print Assumptions C154_runs.

(** In particular the values of [q1] and of its costate at all times do not depend on the order. *)
Theorem C154_outputs :
  forall u p, permutes u p ->
  forall nl dnl init d e W ow N i m, In i [0; 1; 2; 5; 6; 7]%nat -> nth_error (vector_equations nl dnl init d e W ow N) i = Some m ->
  forall other adjoint name o y t ys, with_units u y -> In name ["euler"; "midpoint"; "rk4"] ->
  fixed_odeint plus_system times_system (system_field m) other adjoint name o (Ok y) t = Ok (map Ok ys) ->
  exists zs, fixed_odeint plus_system times_system (system_field m) other adjoint name o (Ok (reorder_inner p y)) t = Ok (map Ok zs) /\
    map outer zs = map outer ys.
Proof.
  exact (fun u p P nl dnl init d e W ow N i m I M other adj name o y t ys =>
    outputs_units u p P nl dnl init d e W ow N i m other adj name o y t ys I M).
Qed.
Print Assumptions C154_outputs.

(** Two units exchanged, and a run of the up-down model with relu. *)
Example C154_example :
  permutes 2 exchanged /\ with_units 2 east_pair /\ reorder_inner exchanged east_pair <> east_pair /\
  forall init, exists m ys, nth_error (vector_equations relu drelu init 2 1 None 1 1) 0 = Some m /\ List.length ys = 2%nat /\
     fixed_odeint plus_system times_system (system_field m) (fun _ _ _ _ _ => Raise ValueError) false "euler" []
       (Ok east_pair) [0%Qc; 1%Qc] = Ok (map Ok ys).
Proof.
  split.
  { split; [lia|]. split; [intros [|k]; cbn; lia|]. exists exchanged. intros [|[|k]] K; cbn; lia. }
  split.
  { unfold with_units, east_pair, second_is. repeat split; eexists _, _, []; (split; [reflexivity|split; [reflexivity|split; [discriminate|cbn; tauto]]]). }
  split.
  { intros X. apply (f_equal (fun y => match y with ([_; (_, x)], _, _) => v3 x 0%nat 0%nat 0%nat | _ => 0 end)) in X. cbn in X. lra. }
  intros init. eexists _, [_; _]. split; [reflexivity|]. split; [reflexivity|].
  lazy -[Rplus Rmult Ropp Rinv Rdiv IZR INR Q2R rsum relu drelu]. reflexivity.
Qed.
